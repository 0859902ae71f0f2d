(** Proofs about the simple file formats. *)
From Coq Require Import String Ascii Permutation.
From Verif.Base Require Import QcX Res Np Bytes Sums ListX Sort.
From Verif.Model Require Import Utils Text Gmx Simple.
From Verif.Proofs Require Import TextP GridAverageP GridP GmxP GmxRoundP.
Local Open Scope list_scope.

(** ** Detecting binary files *)
Definition ubounds (u : utf8) : Prop := (128 <= u_lo u)%Z /\ (u_hi u <= 191)%Z.
Lemma utf8_step_bounds u b u' : ubounds u -> utf8_step u b = Some u' -> ubounds u'.
Proof.
  unfold utf8_step, ubounds. intros H. destruct (u_need u).
  - repeat match goal with |- context [if ?c then _ else _] => destruct c end; intros E; inversion E; subst; cbn; lia.
  - destruct (_ && _)%bool; intros E; inversion E; subst; cbn; lia.
Qed.
Lemma utf8_run_app s t : forall u, utf8_run u (s ++ t) = match utf8_run u s with Some u => utf8_run u t | None => None end.
Proof. induction s as [|b s IH]; intros u; [reflexivity|]. cbn [app utf8_run]. destruct (utf8_step u b); [apply IH|reflexivity]. Qed.
Lemma utf8_run_bounds s : forall u u', ubounds u -> utf8_run u s = Some u' -> ubounds u'.
Proof.
  induction s as [|b s IH]; intros u u' H E; [inversion E; subst; assumption|]. cbn [utf8_run] in E.
  destruct (utf8_step u b) as [u2|] eqn:E2; [|discriminate]. eapply IH; [eapply utf8_step_bounds; eassumption|assumption].
Qed.
Lemma utf8_ascii s : all_ascii s -> forall n, utf8_run (mkUtf8 0 128 191 n) s = Some (mkUtf8 0 128 191 (n + length s)).
Proof.
  induction 1 as [|b s Hb _ IH]; intros n; [cbn; rewrite Nat.add_0_r; reflexivity|]. cbn [utf8_run utf8_step u_need u_chars length].
  unfold is_ascii in Hb. rewrite Hb. rewrite IH. f_equal. f_equal. lia.
Qed.
Lemma ascii_not_binary s : all_ascii s -> is_binary s = false.
Proof.
  intros H. unfold is_binary, utf8_start. rewrite utf8_ascii; [reflexivity|].
  rewrite <- (firstn_skipn (8 * 1024) s) in H. apply ascii_part in H. apply H.
Qed.
(** A byte which is no part of UTF-8 text. *)
Definition never_utf8 (b : byte) : Prop := (192 <= code b <= 193 \/ 245 <= code b)%Z.
Lemma never_step u b : ubounds u -> never_utf8 b -> utf8_step u b = None.
Proof.
  unfold ubounds, never_utf8, utf8_step. intros H Hb. destruct (u_need u).
  - destruct (Z.ltb_spec (code b) 128); [lia|]. destruct (Z.ltb_spec (code b) 194); [reflexivity|].
    destruct (Z.ltb_spec (code b) 224); [lia|]. destruct (Z.eqb_spec (code b) 224); [lia|]. destruct (Z.eqb_spec (code b) 237); [lia|].
    destruct (Z.ltb_spec (code b) 240); [lia|]. destruct (Z.eqb_spec (code b) 240); [lia|]. destruct (Z.ltb_spec (code b) 244); [lia|]. destruct (Z.eqb_spec (code b) 244); [lia|]. reflexivity.
  - destruct (Z.leb_spec (u_lo u) (code b)), (Z.leb_spec (code b) (u_hi u)); cbn [andb]; try reflexivity. lia.
Qed.
Lemma bounds_start : ubounds utf8_start. Proof. unfold ubounds, utf8_start; cbn; lia. Qed.
Lemma never_binary s a b t : firstn (8 * 1024) s = a ++ b :: t -> never_utf8 b -> is_binary s = true.
Proof.
  intros E Hb. unfold is_binary. rewrite E, utf8_run_app. destruct (utf8_run utf8_start a) as [u|] eqn:Eu; [|reflexivity].
  apply utf8_run_bounds in Eu; [|apply bounds_start]. cbn [utf8_run]. rewrite never_step by assumption. reflexivity.
Qed.
(** A byte from 128 to 193 after an ASCII byte. *)
Lemma stray_binary s a x b t : firstn (8 * 1024) s = a ++ x :: b :: t -> (code x < 128)%Z -> (128 <= code b < 194)%Z -> is_binary s = true.
Proof.
  intros E Hx Hb. unfold is_binary. rewrite E, utf8_run_app. destruct (utf8_run utf8_start a) as [u|] eqn:Eu; [|reflexivity].
  apply utf8_run_bounds in Eu; [|apply bounds_start]. cbn [utf8_run]. destruct Eu as [U1 U2].
  unfold utf8_step at 1. destruct (u_need u).
  - destruct (Z.ltb_spec (code x) 128); [|lia]. cbn [utf8_step u_need]. destruct (Z.ltb_spec (code b) 128); [lia|]. destruct (Z.ltb_spec (code b) 194); [reflexivity|lia].
  - destruct (Z.leb_spec (u_lo u) (code x)); [lia|]. reflexivity.
Qed.

(** ** Binary files *)
Lemma concat_nth {A} (n : nat) (d : A) : forall rows i k, (forall r, In r rows -> length r = n) -> (i < n)%nat -> (k < length rows)%nat ->
  nth (i + n * k) (concat rows) d = nth i (nth k rows []) d.
Proof.
  induction rows as [|r rows IH]; intros i k H Hi Hk; [cbn in Hk; lia|]. cbn [concat].
  assert (length r = n) as L by (apply H; left; reflexivity).
  destruct k as [|k].
  - rewrite Nat.mul_0_r, Nat.add_0_r. rewrite app_nth1 by lia. reflexivity.
  - rewrite app_nth2 by nia. cbn [nth]. rewrite <- IH; [f_equal; nia| |assumption|cbn in Hk; lia]. intros r' Hr. apply H. right. assumption.
Qed.
Lemma concat_len {A} n (rows : list (list A)) : (forall r, In r rows -> length r = n) -> length (concat rows) = (n * length rows)%nat.
Proof. induction rows as [|r rows IH]; intros H; [cbn; lia|]. cbn [concat length]. rewrite app_length, (H r) by (left; reflexivity). rewrite IH by (intros r' Hr; apply H; right; exact Hr). lia. Qed.
Lemma strided_concat {A} (d : A) i rows : (forall r, In r rows -> length r = 7%nat) -> (i < 7)%nat ->
  strided i 7 (concat rows) d = map (fun r => nth i r d) rows.
Proof.
  intros H Hi. unfold strided. rewrite (concat_len 7) by assumption.
  assert ((7 * length rows - i + (7 - 1)) / 7 = length rows)%nat as ->.
  { destruct (length rows) as [|n]; [rewrite Nat.div_small; lia|]. symmetry. apply (Nat.div_unique _ 7 _ (6 - i)); lia. }
  rewrite <- (map_nth_seq (fun r => nth i r d) rows []). apply map_ext_in. intros k Hk. apply in_seq in Hk.
  apply concat_nth; [assumption|assumption|lia].
Qed.
Lemma bin_flat rows : binsimple rows = flat_map put_f32 (concat rows).
Proof. unfold binsimple. induction rows as [|r rows IH]; [reflexivity|]. cbn [flat_map concat]. rewrite IH, flat_map_app. reflexivity. Qed.
Lemma bin_items items : fst (fromfile 4 (-1) (flat_map put_f32 items) 0) = map put_f32 items.
Proof.
  unfold fromfile. cbn [skipn fst]. change (-1 <? 0)%Z with true. cbn iota.
  rewrite (flat_length put_f32 4 put_f32_length), Nat.div_mul by lia.
  rewrite <- (app_nil_r (flat_map put_f32 items)). apply chunks. apply put_f32_length.
Qed.
Lemma read_bin rows : (forall r, In r rows -> length r = 7%nat) ->
  read_binsimple (binsimple rows) = map (fun p => (fst p, map (fun r => f32 (nth (snd p) r 0)) rows)) (combine simple_fields (seq 0 7)).
Proof.
  intros H. unfold read_binsimple. rewrite bin_flat, bin_items. apply map_ext_in. intros [l i] Hi. cbn [fst snd]. f_equal.
  apply in_combine_r, in_seq in Hi. rewrite map_map.
  rewrite (map_ext _ f32) by (intros; unfold f32; rewrite f32_back; reflexivity).
  rewrite concat_map. rewrite strided_concat; [|intros r Hr; apply in_map_iff in Hr; destruct Hr as (r0 & <- & Hr); rewrite map_length; auto|lia].
  rewrite map_map. apply map_ext_in. intros r Hr. rewrite (nth_indep _ NaN (f32 0)) by (rewrite map_length, H by assumption; lia). apply map_nth.
Qed.

(** ** Plain files *)
Definition fplain (s : bytes) : Prop := Forall (fun b => code b <> 10 /\ code b <> 13 /\ code b <> 35)%Z s.
Lemma flines_tok w : fplain w -> forall l s, flines_from l (w ++ s) = flines_from (l ++ w) s.
Proof.
  induction 1 as [|b w Hb _ IH]; intros l s; [cbn; rewrite app_nil_r; reflexivity|]. cbn [app flines_from].
  destruct (Z.eqb_spec (code b) 10); [lia|]. destruct (Z.eqb_spec (code b) 13); [lia|]. rewrite IH, <- app_assoc. reflexivity.
Qed.
Lemma flines_nl w s : fplain w -> flines (w ++ nl ++ s) = w :: flines s.
Proof. intros H. unfold flines. rewrite flines_tok by assumption. cbn [app nl flines_from]. change (code (chr 10) =? 10)%Z with true. reflexivity. Qed.
Lemma split_hash_plain w : fplain w -> split_hash w = (w, []).
Proof. induction 1 as [|b w Hb _ IH]; [reflexivity|]. cbn [split_hash]. rewrite IH. destruct (Z.eqb_spec (code b) 35); [lia|reflexivity]. Qed.
Lemma words_join ws : Forall (fun w => Forall plain w /\ w <> []) ws -> words (join sp ws) = ws.
Proof.
  induction 1 as [|w ws [H1 H2] HF IH]; [reflexivity|]. destruct ws as [|w2 ws].
  - cbn [join]. apply words_end; assumption.
  - cbn [join] in *. unfold sp at 1. cbn [app]. rewrite words_space by (try assumption; reflexivity). f_equal. exact IH.
Qed.
Lemma fplain_app a b : fplain (a ++ b) <-> fplain a /\ fplain b. Proof. apply Forall_app. Qed.
Lemma fplain_join ws : Forall fplain ws -> fplain (join sp ws).
Proof.
  induction 1 as [|w ws H HF IH]; [constructor|]. destruct ws as [|w2 ws]; [assumption|].
  change (join sp (w :: w2 :: ws)) with (w ++ sp ++ join sp (w2 :: ws)). rewrite !fplain_app. split; [assumption|]. split; [|assumption].
  unfold sp. constructor; [vm_compute; repeat split; discriminate|constructor].
Qed.
Lemma digits_fplain s : Forall is_digit s -> fplain s.
Proof. apply Forall_impl. unfold is_digit. intros. lia. Qed.
Lemma fmt_f_fplain x : fplain (fmt_f x).
Proof.
  unfold fmt_f. set (n := qround _). destruct (fixed6_eq n) as (i & f & E & Di & Df & _). rewrite E.
  assert (fplain (i ++ chr 46 :: f)) as H.
  { apply fplain_app. split; [apply digits_fplain; assumption|]. constructor; [vm_compute; repeat split; discriminate|apply digits_fplain; assumption]. }
  destruct (qlt x 0); [constructor; [vm_compute; repeat split; discriminate|]|]; assumption.
Qed.
Lemma fmt_f_length x : (8 <= length (fmt_f x))%nat.
Proof.
  unfold fmt_f. set (n := qround _). destruct (fixed6_eq n) as (i & f & E & Di & Df & Ni & Nf & _).
  assert (8 <= length (fixed6 n))%nat as L.
  { unfold fixed6. rewrite !txt_app, !app_length, !txt_length. set (g := dec (Z.to_N (n mod 10 ^ 6))). cbn [String.length].
    assert (1 <= String.length (dec (Z.to_N (n / 10 ^ 6))))%nat.
    { rewrite <- txt_length. pose proof (dec_nonempty (Z.to_N (n / 10 ^ 6))). destruct (txt _); [contradiction|cbn; lia]. }
    assert (String.length (zeros (6 - String.length g)) = 6 - String.length g)%nat as ->.
    { generalize (6 - String.length g)%nat. intros k. induction k as [|k IH]; [reflexivity|cbn; rewrite IH; reflexivity]. }
    lia. }
  destruct (qlt x 0); cbn [length]; lia.
Qed.
Lemma fmt_ext_fin y : fmt_ext (Fin y) = fmt_f y.
Proof. unfold fmt_ext, pad_left. pose proof (fmt_f_length y). replace (6 - length (fmt_f y))%nat with 0%nat by lia. reflexivity. Qed.
Lemma to_ext_fmt y : to_ext (fmt_f y) = Fin (round6 y).
Proof. unfold to_ext. rewrite to_float_fmt. reflexivity. Qed.

(** [s x]: the float32 number stored for [x]. *)
Definition single_of (x : Qc) : Qc := match f32 x with Fin y => y | _ => 0 end.
Lemma f32_single x : qabs x <= single_max -> f32 x = Fin (single_of x) /\ single_near x (single_of x) /\ (is_single x -> single_of x = x).
Proof.
  intros H. destruct (f32_near x H) as (y & E & N). unfold single_of, f32. rewrite E. split; [reflexivity|]. split; [exact N|].
  intros I. apply f32_exact in I. rewrite E in I. injection I. auto.
Qed.
Definition row_text (r : list Qc) : bytes := join sp (map (fun x => fmt_ext (f32 x)) r).
Lemma row_words r : (forall x, In x r -> qabs x <= single_max) ->
  fplain (row_text r) /\ split_line (row_text r) = map (fun x => fmt_f (single_of x)) r.
Proof.
  intros H. assert (map (fun x => fmt_ext (f32 x)) r = map (fun x => fmt_f (single_of x)) r) as E.
  { apply map_ext_in. intros x Hx. destruct (f32_single x (H x Hx)) as [-> _]. apply fmt_ext_fin. }
  unfold row_text. rewrite E. assert (fplain (join sp (map (fun x => fmt_f (single_of x)) r))) as P.
  { apply fplain_join. apply Forall_forall. intros w Hw. apply in_map_iff in Hw. destruct Hw as (x & <- & _). apply fmt_f_fplain. }
  split; [exact P|]. unfold split_line. rewrite split_hash_plain by exact P. cbn [fst]. apply words_join.
  apply Forall_forall. intros w Hw. apply in_map_iff in Hw. destruct Hw as (x & <- & _). apply fmt_f_plain.
Qed.
Lemma rows_lines rows : (forall r x, In r rows -> In x r -> qabs x <= single_max) ->
  map split_line (flines (flat_map (fun r => row_text r ++ nl) rows)) = map (map (fun x => fmt_f (single_of x))) rows.
Proof.
  induction rows as [|r rows IH]; intros H; [reflexivity|]. cbn [flat_map]. rewrite <- app_assoc.
  destruct (row_words r) as [P W]; [intros x Hx; apply (H r x); [left; reflexivity|exact Hx]|].
  rewrite flines_nl by exact P. cbn [map]. rewrite W. f_equal. apply IH. intros r' x Hr Hx. apply (H r' x); [right; exact Hr|exact Hx].
Qed.
Lemma read_plain rows : (forall r, In r rows -> length r = 7%nat) -> (forall r x, In r rows -> In x r -> qabs x <= single_max) ->
  read_plainsimple (plainsimple rows) =
  Ok (map (fun p => (fst p, map (fun r => Fin (round6 (single_of (nth (snd p) r 0)))) rows)) (combine simple_fields (seq 0 7)), length rows).
Proof.
  intros HL H. unfold read_plainsimple, plainsimple. fold row_text. change (fun r => join sp (map (fun x => fmt_ext (f32 x)) r) ++ nl) with (fun r => row_text r ++ nl).
  rewrite flines_nl.
  2:{ apply fplain_join. apply Forall_forall. intros w Hw. apply in_map_iff in Hw. destruct Hw as (l & <- & Hl). cbn [simple_fields In] in Hl.
      repeat (destruct Hl as [<-|Hl]; [constructor; [vm_compute; repeat split; discriminate|constructor]|]). destruct Hl. }
  cbn [header_names]. change (split_hash (join sp (map txt simple_fields))) with (join sp (map txt simple_fields), @nil bytes). cbn [snd].
  change (split_line (join sp (map txt simple_fields))) with (map txt simple_fields). change (map txt simple_fields) with [txt "X"; txt "Y"; txt "N"; txt "T"; txt "M"; txt "U"; txt "V"]. cbn iota.
  rewrite rows_lines by exact H.
  assert (filter (fun ws => negb (length ws =? 0)%nat) (map (map (fun x => fmt_f (single_of x))) rows) = map (map (fun x => fmt_f (single_of x))) rows) as ->.
  { apply filter_all. intros w Hw. apply in_map_iff in Hw. destruct Hw as (r & <- & Hr). rewrite map_length, HL by exact Hr. reflexivity. }
  match goal with |- context [forallb ?F ?L] => assert (forallb F L = true) as -> end.
  { apply forallb_forall. intros w Hw. apply in_map_iff in Hw. destruct Hw as (r & <- & Hr). rewrite map_length, HL by exact Hr. reflexivity. }
  cbn [negb]. rewrite map_length.
  assert (forall k, (k < 7)%nat -> map (fun ws => to_ext (nth k ws [])) (map (map (fun x => fmt_f (single_of x))) rows) = map (fun r => Fin (round6 (single_of (nth k r 0)))) rows) as C.
  { intros k Hk. rewrite map_map. apply map_ext_in. intros r Hr. rewrite (nth_indep _ [] (fmt_f (single_of 0))) by (rewrite map_length, HL by exact Hr; exact Hk).
    rewrite (map_nth (fun x => fmt_f (single_of x))). apply to_ext_fmt. }
  cbn [length seq combine fold_left fst snd map]. rewrite !C by lia. reflexivity.
Qed.
Lemma plain_ascii rows : (forall r x, In r rows -> In x r -> qabs x <= single_max) -> all_ascii (plainsimple rows).
Proof.
  intros H. unfold plainsimple. apply Forall_app. split; [apply clean_ascii, cleanb_true; vm_compute; reflexivity|].
  apply Forall_app. split; [apply clean_ascii, cleanb_true; vm_compute; reflexivity|].
  apply Forall_flat_map. apply Forall_forall. intros r Hr. apply Forall_app. split; [|apply clean_ascii, cleanb_true; vm_compute; reflexivity].
  assert (map (fun x => fmt_ext (f32 x)) r = map (fun x => fmt_f (single_of x)) r) as ->.
  { apply map_ext_in. intros x Hx. destruct (f32_single x (H r x Hr Hx)) as [-> _]. apply fmt_ext_fin. }
  clear. induction r as [|x r IH]; [constructor|]. destruct r as [|x2 r]; [apply clean_ascii, clean_fmt_f|].
  change (map (fun x => fmt_f (single_of x)) (x :: x2 :: r)) with (fmt_f (single_of x) :: map (fun x => fmt_f (single_of x)) (x2 :: r)).
  cbn [join map] in *. apply Forall_app. split; [apply clean_ascii, clean_fmt_f|]. apply Forall_app. split; [apply clean_ascii, cleanb_true; reflexivity|exact IH].
Qed.

(** ** Grid information *)
Section CalcInfo.
  Variables (x0 y0 dx dy : Qc) (nx ny : nat) (X Y : list Qc).
  Hypothesis Hdx : 0 < dx.
  Hypothesis Hdy : tol4 <= dy.
  Hypothesis Hnx : (0 < nx)%nat.
  Hypothesis Hny : (0 < ny)%nat.
  Hypothesis HL : length X = length Y.
  Hypothesis HP : Permutation (combine X Y) (grid nx ny (fun a b => (x0 + NQ a * dx, y0 + NQ b * dy))).
  Let Hdy0 : 0 < dy. Proof. eapply Qclt_le_trans; [|exact Hdy]. reflexivity. Qed.

  Lemma info_length : length X = (nx * ny)%nat.
  Proof. apply Permutation_length in HP. rewrite grid_length, combine_length, <- HL, Nat.min_id in HP. exact HP. Qed.
  Lemma info_pairs x y : In (x, y) (combine X Y) <-> exists a b, (a < nx)%nat /\ (b < ny)%nat /\ x = x0 + NQ a * dx /\ y = y0 + NQ b * dy.
  Proof.
    split.
    - intros H. apply (Permutation_in _ HP), in_grid in H. destruct H as (a & b & Ha & Hb & E). inversion E. exists a, b. auto.
    - intros (a & b & Ha & Hb & -> & ->). apply (Permutation_in _ (Permutation_sym HP)). apply in_grid. exists a, b. auto.
  Qed.
  Lemma map_fst_combine {A B} : forall (l : list A) (m : list B), length l = length m -> map fst (combine l m) = l.
  Proof. induction l as [|a l IH]; intros [|b m] H; try discriminate; [reflexivity|]. cbn. rewrite IH; [reflexivity|cbn in H; lia]. Qed.
  Lemma map_snd_combine {A B} : forall (l : list A) (m : list B), length l = length m -> map snd (combine l m) = m.
  Proof. induction l as [|a l IH]; intros [|b m] H; try discriminate; [reflexivity|]. cbn. rewrite IH; [reflexivity|cbn in H; lia]. Qed.
  Lemma info_X v : In v X <-> exists a, (a < nx)%nat /\ v = x0 + NQ a * dx.
  Proof.
    rewrite <- (map_fst_combine X Y HL). rewrite in_map_iff. split.
    - intros ([x y] & <- & H). apply info_pairs in H. destruct H as (a & b & Ha & _ & E & _). exists a. auto.
    - intros (a & Ha & ->). exists (x0 + NQ a * dx, y0 + NQ 0 * dy). split; [reflexivity|]. apply info_pairs. exists a, 0%nat. auto.
  Qed.
  Lemma info_Y v : In v Y <-> exists b, (b < ny)%nat /\ v = y0 + NQ b * dy.
  Proof.
    rewrite <- (map_snd_combine X Y HL). rewrite in_map_iff. split.
    - intros ([x y] & <- & H). apply info_pairs in H. destruct H as (a & b & _ & Hb & _ & E). exists b. auto.
    - intros (b & Hb & ->). exists (x0 + NQ 0 * dx, y0 + NQ b * dy). split; [reflexivity|]. apply info_pairs. exists 0%nat, b. auto.
  Qed.
  Let target := grid ny nx (fun b a => [y0 + NQ b * dy; x0 + NQ a * dx]).
  Lemma target_sorted : sorted lexle target.
  Proof.
    apply sorted_of_nth. intros p q u v Hpq Hu Hv.
    assert (p < ny * nx)%nat as Hp. { unfold target in Hu. rewrite <- (grid_length ny nx (fun b a => [y0 + NQ b * dy; x0 + NQ a * dx])). apply nth_error_Some. congruence. }
    assert (q < ny * nx)%nat as Hq. { unfold target in Hv. rewrite <- (grid_length ny nx (fun b a => [y0 + NQ b * dy; x0 + NQ a * dx])). apply nth_error_Some. congruence. }
    destruct (rm_split _ _ _ Hp) as (i & j & Hi & Hj & ->). destruct (rm_split _ _ _ Hq) as (i' & j' & Hi' & Hj' & ->).
    unfold target in Hu, Hv. rewrite grid_nth_error in Hu, Hv by assumption. inversion Hu. inversion Hv. rewrite !lexle_cons.
    destruct (Nat.lt_trichotomy j j') as [C|[C|C]].
    - left. apply step_lt; assumption.
    - subst j'. right. split; [reflexivity|]. left. apply step_lt; [assumption|lia].
    - exfalso. nia.
  Qed.
  Lemma grid_swap {A} n m (f : nat -> nat -> A) : Permutation (grid n m f) (grid m n (fun b a => f a b)).
  Proof.
    unfold grid. induction n as [|n IH] in f |- *.
    - cbn. induction (seq 0 m); [constructor|assumption].
    - rewrite !seq_S_end. cbn [Nat.add]. rewrite flat_map_app. cbn [flat_map]. rewrite app_nil_r.
      rewrite IH. clear IH. generalize (seq 0 m) as s. induction s as [|j s IHs]; [reflexivity|].
      cbn [flat_map map]. rewrite map_app. cbn [map]. rewrite <- app_assoc.
      rewrite <- !app_assoc. apply Permutation_app_head. cbn [app]. rewrite <- Permutation_middle. constructor. rewrite <- IHs. reflexivity.
  Qed.
  Lemma info_sorted : isort lexle (map (fun p => [snd p; fst p]) (combine X Y)) = target.
  Proof.
    rewrite (isort_canonical lexle lexle_total lexle_trans lexle_antisym _ target).
    - apply isort_id; [apply lexle_total|apply lexle_trans|apply lexle_antisym|apply target_sorted].
    - rewrite HP. rewrite grid_map. unfold target. cbn [fst snd]. apply (grid_swap nx ny (fun a b => [y0 + NQ b * dy; x0 + NQ a * dx])).
  Qed.
  Lemma count_close_run l1 l2 : (forall y, In y l1 -> y = y0) -> (l2 = [] \/ exists y r, l2 = y :: r /\ qlt (qabs (y - y0)) tol4 = false) ->
    count_close y0 (l1 ++ l2) = length l1.
  Proof.
    intros H1 H2. induction l1 as [|y l1 IH].
    - destruct H2 as [-> | (y & r & -> & E)]; [reflexivity|]. cbn. rewrite E. reflexivity.
    - cbn [app count_close length]. rewrite (H1 y) by (left; reflexivity). replace (y0 - y0) with 0 by ring.
      change (qlt (qabs 0) tol4) with true. cbn iota. rewrite IH; [reflexivity|]. intros z Hz. apply H1. right. exact Hz.
  Qed.
  Lemma info_shape : calc_shape X Y = Ok (nx, ny).
  Proof.
    pose proof info_length as IL. unfold calc_shape. rewrite info_sorted. unfold target. clear target HP. destruct ny as [|ny'] eqn:Eny; [lia|]. rewrite grid_S.
    destruct nx as [|nx'] eqn:Enx; [lia|]. cbn [seq map app]. rewrite map_app, map_map. cbn [nth].
    assert (y0 + NQ 0 * dy = y0) as E0 by (rewrite NQ_0; ring). rewrite E0.
    rewrite count_close_run.
    - rewrite map_length, seq_length. rewrite IL. f_equal. f_equal. rewrite Nat.mul_comm. apply Nat.div_mul. lia.
    - intros y Hy. apply in_map_iff in Hy. destruct Hy as (a & <- & _). reflexivity.
    - destruct ny' as [|ny'']; [left; reflexivity|]. right. rewrite grid_S. cbn [seq map app]. eexists _, _. split; [reflexivity|]. cbn [nth].
      apply qlt_false. assert (y0 + NQ 1 * dy - y0 = dy) as ->. { change (NQ 1) with 1. ring. }
      eapply Qcle_trans; [exact Hdy|]. apply (proj1 (qabs_le dy (qabs dy))). apply Qcle_refl.
  Qed.

  Lemma max_positions z d n l : 0 < d -> (0 < n)%nat -> (forall v, In v l <-> exists i, (i < n)%nat /\ v = z + NQ i * d) -> list_max l = Some (z + NQ (n - 1) * d).
  Proof.
    intros Hd Hn H. apply list_max_spec. split.
    - apply H. exists (n - 1)%nat. split; [lia|reflexivity].
    - intros v Hv. apply H in Hv. destruct Hv as (i & Hi & ->). destruct (Nat.eq_dec i (n - 1)) as [->|N]; [apply Qcle_refl|].
      apply qc_lt_le. apply step_lt; [assumption|lia].
  Qed.
  Definition spacing_of (n : nat) (d : Qc) : ext := if Nat.eqb n 1 then NaN else Fin d.
  Lemma calc_1d_positions z d n l : 0 < d -> (0 < n)%nat -> (forall v, In v l <-> exists i, (i < n)%nat /\ v = z + NQ i * d) ->
    calc_1d l n = Ok (spacing_of n d).
  Proof.
    intros Hd Hn H. unfold calc_1d. rewrite (min_positions z d n l Hd Hn H), (max_positions z d n l Hd Hn H). cbn [of_option rbind]. f_equal.
    assert (NQ n - 1 = NQ (n - 1)) as ->. { replace n with (S (n - 1)) at 1 by lia. rewrite NQ_S. ring. }
    replace (z + NQ (n - 1) * d - z) with (NQ (n - 1) * d) by ring. unfold spacing_of, ediv.
    destruct (Nat.eqb_spec n 1) as [->|N].
    - change (NQ (1 - 1)) with 0. rewrite qeq_refl. replace (0 * d) with 0 by ring. rewrite qeq_refl. reflexivity.
    - assert (0 < NQ (n - 1)) as P. { pose proof (step_lt 0 1 0 (n - 1) eq_refl ltac:(lia)) as K. rewrite NQ_0 in K. replace (0 + 0 * 1) with 0 in K by ring. replace (0 + NQ (n - 1) * 1) with (NQ (n - 1)) in K by ring. exact K. }
      destruct (qeq_spec (NQ (n - 1)) 0) as [E|_]; [rewrite E in P; discriminate|]. f_equal. field. apply qpos_nz. exact P.
  Qed.
  Theorem calc_information_grid : calc_information X Y = Ok (mkMinfo (nx, ny) (spacing_of nx dx, spacing_of ny dy) (x0, y0)).
  Proof.
    unfold calc_information. rewrite HL, Nat.eqb_refl. cbn [negb]. rewrite info_shape. cbn [rbind].
    rewrite (calc_1d_positions x0 dx nx X Hdx Hnx info_X), (calc_1d_positions y0 dy ny Y Hdy0 Hny info_Y). cbn [rbind].
    rewrite (min_positions x0 dx nx X Hdx Hnx info_X), (min_positions y0 dy ny Y Hdy0 Hny info_Y). reflexivity.
  Qed.
End CalcInfo.

(** ** Coordinates of five decimals *)
Lemma round5_close y n : qabs (y - ZQ n / ZQ (10 ^ 5)) < Q2Qc (1 # 200000) -> round5 y = ZQ n / ZQ (10 ^ 5).
Proof.
  intros H. unfold round5. do 2 f_equal. pose proof (qround_near (y * ZQ (10 ^ 5))) as N.
  assert (qabs (y * ZQ (10 ^ 5) - ZQ n) < Q2Qc (1 # 2)) as H2.
  { replace (y * ZQ (10 ^ 5) - ZQ n) with ((y - ZQ n / ZQ (10 ^ 5)) * ZQ (10 ^ 5)) by (field; discriminate).
    rewrite qabs_mult_pos by reflexivity. generalize dependent (qabs (y - ZQ n / ZQ (10 ^ 5))). intros a Ha. clear -Ha.
    change (10 ^ 5)%Z with 100000%Z. qlra'. }
  set (q := y * ZQ (10 ^ 5)) in *. set (m := qround q) in *. apply qabs_le in N.
  assert (- Q2Qc (1 # 2) < q - ZQ n /\ q - ZQ n < Q2Qc (1 # 2)) as [H3 H4].
  { destruct (qlt (q - ZQ n) (Q2Qc (1 # 2))) eqn:E1; [apply qlt_true in E1|apply qlt_false in E1].
    - split; [|exact E1]. destruct (qlt (- Q2Qc (1 # 2)) (q - ZQ n)) eqn:E2; [apply qlt_true in E2; exact E2|apply qlt_false in E2].
      exfalso. assert (qabs (- (q - ZQ n)) < Q2Qc (1 # 2)) as H5 by (rewrite qabs_opp; exact H2). pose proof (proj2 (proj1 (qabs_le (- (q - ZQ n)) _) (Qcle_refl _))). qlra'.
    - exfalso. pose proof (proj2 (proj1 (qabs_le (q - ZQ n) _) (Qcle_refl _))). qlra'. }
  destruct N as [N1 N2].
  assert (ZQ m < ZQ (n + 1)) as A by (rewrite ZQ_add; change (ZQ 1) with 1; qlra').
  assert (ZQ n < ZQ (m + 1)) as B by (rewrite ZQ_add; change (ZQ 1) with 1; qlra').
  apply (proj1 (ZQ_lt _ _)) in A. apply (proj1 (ZQ_lt _ _)) in B. lia.
Qed.
(** A number of five decimals which survives storing in single precision: it is exact or not too large. *)
Definition keeps5 (c : Qc) : Prop := exists n, c = ZQ n / ZQ (10 ^ 5) /\ (is_single c \/ qabs c <= ZQ 64).
Lemma keeps5_bound c : keeps5 c -> qabs c <= single_max.
Proof.
  intros (n & _ & [H|H]); [apply single_le_max; exact H|]. eapply Qcle_trans; [exact H|]. apply qle_true. vm_compute. reflexivity.
Qed.
Lemma keeps5_error c : keeps5 c -> qabs (single_of c - c) <= Q2Qc (1 # 262144).
Proof.
  intros K. pose proof (f32_single c (keeps5_bound c K)) as (_ & N & S). destruct K as (n & _ & [H|H]).
  - rewrite (S H). replace (c - c) with 0 by ring. apply qle_true. reflexivity.
  - destruct N as [N|N].
    + eapply Qcle_trans; [exact N|]. assert (pow2 (-24) * qabs c <= pow2 (-24) * ZQ 64) as M by (apply qmult_le_compat_l; [apply Qclt_le_weak, pow2_pos|exact H]).
      eapply Qcle_trans; [exact M|]. apply qle_true. vm_compute. reflexivity.
    + eapply Qcle_trans; [exact N|]. apply qle_true. vm_compute. reflexivity.
Qed.
Lemma keeps5_bin c : keeps5 c -> round5 (single_of c) = c.
Proof.
  intros K. pose proof (keeps5_error c K) as E. destruct K as (n & -> & _). apply round5_close.
  eapply Qcle_lt_trans; [exact E|]. reflexivity.
Qed.
Lemma keeps5_plain c : keeps5 c -> round5 (round6 (single_of c)) = c.
Proof.
  intros K. pose proof (keeps5_error c K) as E. destruct K as (n & Ec & _). pose proof (round6_near (single_of c)) as R.
  rewrite Ec at 2. apply round5_close. rewrite <- Ec.
  apply qabs_le in E. apply qabs_le in R. destruct E as [E1 E2], R as [R1 R2]. set (s := single_of c) in *. set (r := round6 s) in *. clearbody s r. clear Ec.
  assert (qabs (r - c) <= Q2Qc (1 # 2000000) + Q2Qc (1 # 262144)) as H. { apply qabs_le. split; qlra'. }
  eapply Qcle_lt_trans; [exact H|]. reflexivity.
Qed.

(** ** Round trip *)
Section SimpleRound.
  Variables (d : dict (list Qc)) (nx ny : nat) (x0 y0 dx dy : Qc) (F : string -> list Qc).
  Hypothesis HF : forall l, In l simple_fields -> get d l = Some (F l) /\ length (F l) = (nx * ny)%nat /\ forall v, In v (F l) -> qabs v <= single_max.
  Definition trows := map (fun k => map (fun l => nth k (F l) 0) simple_fields) (seq 0 (nx * ny)).
  Lemma simple_written b : simple_write b d = Ok (if b then binsimple trows else plainsimple trows).
  Proof.
    unfold simple_write. rewrite (rmapM_ok_map _ F) by (intros l Hl; unfold key; rewrite (proj1 (HF l Hl)); reflexivity). cbn [rbind].
    assert (table_rows (map F simple_fields) = Ok trows) as ->; [|reflexivity].
    unfold table_rows. cbn [map simple_fields].
    match goal with |- context [forallb ?P ?L] => assert (forallb P L = true) as -> end.
    { apply forallb_forall. intros c Hc. change [F "X"; F "Y"; F "N"; F "T"; F "M"; F "U"; F "V"]%string with (map F simple_fields) in Hc. apply in_map_iff in Hc. destruct Hc as (l & <- & Hl). apply Nat.eqb_eq.
      destruct (HF l Hl) as (_ & -> & _). destruct (HF "X"%string) as (_ & -> & _); [cbn; tauto|reflexivity]. }
    destruct (HF "X"%string) as (_ & -> & _); [cbn; tauto|]. reflexivity.
  Qed.
  Lemma trows_len r : In r trows -> length r = 7%nat.
  Proof. intros H. apply in_map_iff in H. destruct H as (k & <- & _). reflexivity. Qed.
  Lemma trows_bound r x : In r trows -> In x r -> qabs x <= single_max.
  Proof.
    intros H Hx. apply in_map_iff in H. destruct H as (k & <- & Hk). apply in_seq in Hk. apply in_map_iff in Hx. destruct Hx as (l & <- & Hl).
    destruct (HF l Hl) as (_ & L & B). apply B. apply nth_In. rewrite L. lia.
  Qed.
  Lemma trows_cols {A} (f : Qc -> A) : map (fun p => (fst p, map (fun r => f (nth (snd p) r 0)) trows)) (combine simple_fields (seq 0 7)) = map (fun l => (l, map f (F l))) simple_fields.
  Proof.
    assert (forall l, In l simple_fields -> map (fun k => f (nth k (F l) 0)) (seq 0 (nx * ny)) = map f (F l)) as C.
    { intros l Hl. destruct (HF l Hl) as (_ & <- & _). apply map_nth_seq. }
    cbn [simple_fields seq combine map fst snd]. unfold trows. rewrite !map_map. cbn [simple_fields map nth].
    rewrite !C by (cbn; tauto). reflexivity.
  Qed.
  Hypothesis Hnx : (1 < nx)%nat.
  Hypothesis Hny : (1 < ny)%nat.
  Hypothesis Hdx : 0 < dx.
  Hypothesis Hdy : tol4 <= dy.
  Hypothesis HX : F "X"%string = grid nx ny (fun a _ => x0 + NQ a * dx).
  Hypothesis HY : F "Y"%string = grid nx ny (fun _ b => y0 + NQ b * dy).
  Hypothesis HK : forall c, In c (F "X"%string) \/ In c (F "Y"%string) -> keeps5 c.
  Lemma combine_grid {A B} n m (f : nat -> nat -> A) (g : nat -> nat -> B) : combine (grid n m f) (grid n m g) = grid n m (fun a b => (f a b, g a b)).
  Proof.
    unfold grid. induction (seq 0 n) as [|a s IH]; [reflexivity|]. cbn [flat_map].
    rewrite <- IH. clear IH. generalize (flat_map (fun i => map (f i) (seq 0 m)) s), (flat_map (fun i => map (g i) (seq 0 m)) s). intros l1 l2.
    induction (seq 0 m) as [|b t IHt]; [reflexivity|]. cbn [map app combine]. rewrite IHt. reflexivity.
  Qed.
  Definition after (S : Qc -> Qc) : dict (list ext) :=
    ("X"%string, map Fin (F "X"%string)) :: ("Y"%string, map Fin (F "Y"%string)) :: map (fun l => (l, map (fun x => Fin (S x)) (F l))) ["N"; "T"; "M"; "U"; "V"]%string.
  Lemma finish (S : Qc -> Qc) : (forall c, keeps5 c -> round5 (S c) = c) -> forall scalar, scalar = false ->
    (let D := map (fun l => (l, map (fun x => Fin (S x)) (F l))) simple_fields in
     do X <- key D "X"; do Y <- key D "Y"; if scalar : bool then Err TypeErr else
     do xs <- rmapM finite X; do ys <- rmapM finite Y;
     do i <- calc_information (map round5 xs) (map round5 ys);
     let '(nx, ny) := m_shape i in
     Ok (put (put D "X" (grid nx ny (fun a _ => along (fst (m_origin i)) (fst (m_spacing i)) a)))
             "Y" (grid nx ny (fun _ b => along (snd (m_origin i)) (snd (m_spacing i)) b)), i)) =
    Ok (after S, mkMinfo (nx, ny) (Fin dx, Fin dy) (x0, y0)).
  Proof.
    intros HS scalar ->. cbv zeta. cbn [map simple_fields]. unfold key at 1 2. cbn [get String.eqb Ascii.eqb Bool.eqb of_option rbind].
    rewrite !(rmapM_ok_map finite (fun v => match v with Fin x => x | _ => 0 end)) by (intros v Hv; apply in_map_iff in Hv; destruct Hv as (x & <- & _); reflexivity).
    cbn [rbind]. rewrite !map_map.
    rewrite (map_ext_in _ (fun x => x) (F "X"%string)) by (intros c Hc; apply HS, HK; left; exact Hc).
    rewrite (map_ext_in _ (fun x => x) (F "Y"%string)) by (intros c Hc; apply HS, HK; right; exact Hc).
    rewrite !map_id.
    rewrite (calc_information_grid x0 y0 dx dy nx ny); [|assumption|assumption|lia|lia|rewrite HX, HY, !grid_length; reflexivity|rewrite HX, HY, combine_grid; reflexivity].
    cbn [rbind m_shape m_origin m_spacing fst snd]. unfold spacing_of.
    destruct (Nat.eqb_spec nx 1); [lia|]. destruct (Nat.eqb_spec ny 1); [lia|]. cbn [along put String.eqb Ascii.eqb Bool.eqb].
    unfold after. cbn [map]. rewrite HX, HY, !grid_map.
    rewrite (grid_ext nx ny (fun a _ => Fin (x0 + dx * NQ a)) (fun a _ => Fin (x0 + NQ a * dx))) by (intros; f_equal; ring).
    rewrite (grid_ext nx ny (fun _ b => Fin (y0 + dy * NQ b)) (fun _ b => Fin (y0 + NQ b * dy))) by (intros; f_equal; ring).
    reflexivity.
  Qed.
  Theorem bin_round : is_binary (binsimple trows) = true -> simple_read (binsimple trows) = Ok (after single_of, mkMinfo (nx, ny) (Fin dx, Fin dy) (x0, y0)).
  Proof.
    intros HB. unfold simple_read. rewrite HB. cbn [rbind]. rewrite read_bin by apply trows_len. rewrite trows_cols.
    assert (map (fun l => (l, map f32 (F l))) simple_fields = map (fun l => (l, map (fun x => Fin (single_of x)) (F l))) simple_fields) as ->.
    { apply map_ext_in. intros l Hl. f_equal. apply map_ext_in. intros x Hx. apply f32_single. apply (HF l Hl). exact Hx. }
    apply (finish single_of keeps5_bin false eq_refl).
  Qed.
  Theorem plain_round : simple_read (plainsimple trows) = Ok (after (fun x => round6 (single_of x)), mkMinfo (nx, ny) (Fin dx, Fin dy) (x0, y0)).
  Proof.
    unfold simple_read. rewrite ascii_not_binary by (apply plain_ascii; apply trows_bound).
    rewrite read_plain by (apply trows_len || apply trows_bound). cbn [rbind]. rewrite (trows_cols (fun x => Fin (round6 (single_of x)))).
    apply (finish (fun x => round6 (single_of x)) keeps5_plain).
    unfold trows. rewrite map_length, seq_length. apply Nat.eqb_neq. nia.
  Qed.
End SimpleRound.
