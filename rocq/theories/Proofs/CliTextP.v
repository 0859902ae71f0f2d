(** The texts which the types of parameters accept. *)
From Coq Require Import String Ascii.
From Verif.Base Require Import QcX Res Np Bytes.
From Verif.Model Require Import Text PyText Click Cli.
From Verif.Spec Require Import CliSpec CliReads.
From Verif.Proofs Require Import TextP PyTextP ClickP CliP.
From Verif.Model Require Utils Formats.
Local Open Scope string_scope.
Local Open Scope list_scope.
Local Notation length := List.length.

(** ** Words *)
Lemma space_iff c : is_space c = true <-> gap c.
Proof.
  unfold gap, white, is_space. rewrite orb_true_iff, !andb_true_iff, !Z.leb_le. lia.
Qed.
Lemma space_false c : is_space c = false <-> ~ gap c.
Proof. rewrite <- space_iff. destruct (is_space c); split; congruence. Qed.
Lemma words_parts_from s : forall tok, Forall (fun c => ~ gap c) tok ->
  match tok with
  | [] => parts s (words_from [] s)
  | _ => exists w s' l, s = w ++ s' /\ Forall (fun c => ~ gap c) w /\ (s' = [] \/ exists c t, s' = c :: t /\ gap c) /\ parts s' l /\ words_from tok s = (tok ++ w) :: l
  end.
Proof.
  induction s as [|c s IH]; intros tok Ht.
  - destruct tok as [|a tok]; [constructor; constructor|]. exists [], [], []. repeat split; [constructor|left; reflexivity|constructor; constructor|cbn; rewrite app_nil_r; reflexivity].
  - cbn [words_from]. destruct (is_space c) eqn:E.
    + apply space_iff in E. pose proof (IH [] (Forall_nil _)) as P. cbn iota in P. destruct tok as [|a tok].
      * inversion P as [s0 Hs | pre w s0 l Hp Hw Hn Hs Hl]; subst; [apply parts_none; constructor; assumption|]. apply (parts_word (c :: pre)); try assumption. constructor; assumption.
      * exists [], (c :: s), (words_from [] s). split; [reflexivity|]. split; [constructor|]. split; [right; exists c, s; split; [reflexivity|exact E]|]. split; [|rewrite app_nil_r; reflexivity].
        inversion P as [s0 Hs | pre w s0 l Hp Hw Hn Hs Hl]; subst; [apply parts_none; constructor; assumption|]. apply (parts_word (c :: pre)); try assumption. constructor; assumption.
    + apply space_false in E. pose proof (IH (tok ++ [c])) as P. assert (Forall (fun c => ~ gap c) (tok ++ [c])) as Ht' by (apply Forall_app; split; [exact Ht|repeat constructor; exact E]).
      specialize (P Ht'). destruct tok as [|a tok].
      * cbn [app] in P |- *. destruct P as (w & s' & l & -> & Hw & Hs & Hl & E'). change (c :: w ++ s') with ([] ++ (c :: w) ++ s').
        match goal with |- parts _ ?W => replace W with ((c :: w) :: l) by (symmetry; exact E') end.
        apply parts_word; [constructor|discriminate|constructor; assumption|exact Hs|exact Hl].
      * cbn [app] in P |- *. destruct P as (w & s' & l & -> & Hw & Hs & Hl & E'). exists (c :: w), s', l. rewrite <- app_assoc in E'. cbn [app] in E'.
        repeat split; try assumption. constructor; assumption.
Qed.
Lemma words_parts s : parts s (words s).
Proof. exact (words_parts_from s [] (Forall_nil _)). Qed.
Lemma parts_words s l : parts s l -> words s = l.
Proof.
  assert (forall p, Forall gap p -> Forall (fun b => is_space b = true) p) as G by (intros p; apply Forall_impl; intros c; apply space_iff).
  induction 1 as [s Hs | pre w s l Hp Hn Hw Hs _ IH].
  - rewrite <- (app_nil_r s). rewrite words_skip by (apply G; exact Hs). reflexivity.
  - rewrite words_skip by (apply G; exact Hp).
    assert (Forall TextP.plain w) as Hw' by (revert Hw; apply Forall_impl; intros c; apply space_false).
    destruct Hs as [-> | (c & t & -> & Hc)].
    + rewrite app_nil_r, words_end by assumption. rewrite <- IH. reflexivity.
    + apply space_iff in Hc. rewrite words_space by assumption. rewrite words_cons_space in IH by exact Hc. f_equal. exact IH.
Qed.
Lemma words_iff s l : words s = l <-> parts s l.
Proof. split; [intros <-; apply words_parts|apply parts_words]. Qed.

(** ** Yes and no *)
Lemma drop_space_app pre s : Forall gap pre -> drop_space (pre ++ s) = drop_space s.
Proof. induction 1 as [|c pre Hc _ IH]; [reflexivity|]. cbn [app drop_space]. rewrite (proj2 (space_iff c) Hc). exact IH. Qed.
Lemma drop_space_inv s : exists pre, s = pre ++ drop_space s /\ Forall gap pre.
Proof.
  induction s as [|c s (pre & E & Hw)]; [exists []; split; [reflexivity|constructor]|]. cbn [drop_space]. destruct (is_space c) eqn:B.
  - exists (c :: pre). split; [cbn; f_equal; exact E|]. constructor; [apply space_iff; exact B|exact Hw].
  - exists []. split; [reflexivity|constructor].
Qed.
Lemma Forall_rev_gap l : Forall gap l -> Forall gap (rev l).
Proof. intros H. apply Forall_forall. intros c Hc. apply in_rev in Hc. rewrite Forall_forall in H. auto. Qed.
Lemma strip_space_inv s : exists pre post, s = pre ++ strip_space s ++ post /\ Forall gap pre /\ Forall gap post.
Proof.
  unfold strip_space. destruct (drop_space_inv s) as (pre & E & Hw). destruct (drop_space_inv (rev (drop_space s))) as (post & E2 & Hw2).
  exists pre, (rev post). split; [|split; [exact Hw|apply Forall_rev_gap; exact Hw2]]. rewrite E at 1. f_equal. rewrite <- rev_app_distr. rewrite <- E2. symmetry. apply rev_involutive.
Qed.
Lemma drop_space_solid s : match s with [] => True | c :: _ => ~ gap c end -> drop_space s = s.
Proof. destruct s as [|c s]; [reflexivity|]. intros H. cbn. rewrite (proj2 (space_false c) H). reflexivity. Qed.
Lemma strip_space_spec pre core post : Forall gap pre -> Forall gap post -> Forall (fun c => ~ gap c) core -> strip_space (pre ++ core ++ post) = core.
Proof.
  intros Hpre Hpost Hc. unfold strip_space. rewrite drop_space_app by exact Hpre. destruct core as [|c core].
  - cbn [app]. replace post with (post ++ []) by apply app_nil_r. rewrite drop_space_app by exact Hpost. reflexivity.
  - rewrite (drop_space_solid ((c :: core) ++ post)) by (inversion Hc; assumption). rewrite rev_app_distr, drop_space_app by (apply Forall_rev_gap; exact Hpost).
    rewrite drop_space_solid; [apply rev_involutive|]. destruct (rev (c :: core)) as [|a l] eqn:E; [exact I|]. rewrite Forall_forall in Hc. apply Hc. rewrite in_rev, E. left. reflexivity.
Qed.
(** Words of small letters and digits. *)
Definition small (c : ascii) : Prop := (97 <= code c <= 122 \/ 48 <= code c <= 57)%Z.
Lemma lower_small w s : Forall small (txt w) -> (lower s = txt w <-> any_case w s).
Proof.
  unfold any_case. generalize (txt w) as l. intros l H. revert l H. induction s as [|c s IH]; intros l H.
  - cbn. split; intros E; [subst; constructor|inversion E; reflexivity].
  - cbn [lower map]. split.
    + intros E. destruct l as [|a l]; [discriminate|]. injection E as E1 E2. inversion H as [|? ? Ha Hl]; subst. constructor; [|apply IH; auto].
      unfold lower1, small in *. destruct (Z.leb_spec 65 (code c)), (Z.leb_spec (code c) 90); cbn [andb]; try (left; reflexivity).
      right. rewrite code_chr in * by lia. lia.
    + intros E. inversion E as [|a ? l' ? Ha Hl]; subst. inversion H as [|? ? Hs ?]; subst. f_equal; [|apply IH; auto].
      unfold lower1, small in *. destruct Ha as [-> | [Hr Hc]].
      * destruct (Z.leb_spec 65 (code a)), (Z.leb_spec (code a) 90); cbn [andb]; try reflexivity. lia.
      * rewrite (proj2 (Z.leb_le 65 (code c))), (proj2 (Z.leb_le (code c) 90)) by lia. cbn [andb]. apply code_inj. rewrite code_chr by lia. lia.
Qed.
Lemma any_case_solid w s : Forall small (txt w) -> any_case w s -> Forall (fun c => ~ gap c) s.
Proof.
  unfold any_case. intros H E. induction E as [|a c l s Hc _ IH]; [constructor|]. inversion H as [|? ? Hs Hl]; subst. constructor; [|apply IH; exact Hl].
  unfold gap, white, small in *. destruct Hc as [-> | [_ Hc]]; lia.
Qed.
Lemma smalls l : forallb (fun w => forallb (fun c => ((97 <=? code c) && (code c <=? 122) || (48 <=? code c) && (code c <=? 57))%Z) (txt w)) l = true -> forall w, In w l -> Forall small (txt w).
Proof.
  intros H w Hw. rewrite forallb_forall in H. apply H in Hw. apply Forall_forall. intros c Hc. rewrite forallb_forall in Hw. apply Hw in Hc. unfold small.
  rewrite orb_true_iff, !andb_true_iff, !Z.leb_le in Hc. exact Hc.
Qed.
Lemma word_iff l s : (forall w, In w l -> Forall small (txt w)) ->
  (existsb (fun w => bytes_eqb (lower (strip_space (txt s))) (txt w)) l = true <->
   exists w pre core post, In w l /\ txt s = pre ++ core ++ post /\ Forall gap pre /\ Forall gap post /\ any_case w core).
Proof.
  intros Hl. rewrite existsb_exists. split.
  - intros (w & Hw & E). apply bytes_eqb_iff in E. apply lower_small in E; [|apply Hl; exact Hw]. destruct (strip_space_inv (txt s)) as (pre & post & E2 & H1 & H2).
    exists w, pre, (strip_space (txt s)), post. auto.
  - intros (w & pre & core & post & Hw & E & H1 & H2 & H3). exists w. split; [exact Hw|]. apply bytes_eqb_iff. rewrite E.
    rewrite strip_space_spec; [|assumption|assumption|apply (any_case_solid w); [apply Hl; exact Hw|exact H3]]. apply lower_small; [apply Hl; exact Hw|exact H3].
Qed.
Lemma bool_text_iff s b : bool_text (txt s) = Some b <-> yes_no s b.
Proof.
  unfold bool_text. change ["true"; "1"; "yes"; "y"; "t"; "on"] with yes_words. change ["false"; "0"; "no"; "n"; "f"; "off"] with no_words.
  assert (existsb (fun w => bytes_eqb (lower (strip_space (txt s))) (txt w)) yes_words = true <-> yes_no s true) as Y by (apply word_iff, smalls; reflexivity).
  assert (existsb (fun w => bytes_eqb (lower (strip_space (txt s))) (txt w)) no_words = true <-> yes_no s false) as N by (apply word_iff, smalls; reflexivity).
  destruct (existsb _ yes_words) eqn:Ey.
  - destruct b; [tauto|]. split; [discriminate|]. intros H. apply N in H. exfalso. rewrite existsb_exists in Ey, H. destruct Ey as (w & Hw & E1), H as (w' & Hw' & E2).
    apply bytes_eqb_iff in E1, E2. rewrite E1 in E2. apply txt_inj in E2. subst w'. cbn in Hw, Hw'.
    repeat (destruct Hw as [<- | Hw]; [repeat (destruct Hw' as [Hw' | Hw']; [discriminate|]); exact Hw'|]). exact Hw.
  - destruct (existsb _ no_words) eqn:En.
    + destruct b; [|tauto]. split; [discriminate|]. intros H. apply Y in H. discriminate.
    + split; [discriminate|]. intros H. destruct b; [apply Y in H|apply N in H]; discriminate.
Qed.

(** ** All types *)
Lemma mapM_iff {A B} (f : A -> option B) l m : option_mapM f l = Some m <-> Forall2 (fun a b => f a = Some b) l m.
Proof.
  unfold option_mapM. revert m. induction l as [|a l IH]; intros m; cbn [fold_right].
  - split; [intros E; injection E as <-; constructor|intros H; inversion H; reflexivity].
  - split.
    + destruct (f a) as [b|] eqn:E; [|discriminate]. destruct (fold_right _ _ l) as [bs|] eqn:E2; [|discriminate]. intros H. injection H as <-. constructor; [exact E|apply IH; reflexivity].
    + intros H. inversion H as [|? b ? bs Hb Hl]; subst. rewrite Hb, (proj2 (IH bs) Hl). reflexivity.
Qed.
Lemma map_txt_str l : map txt (map str l) = l.
Proof. rewrite map_map. rewrite (map_ext _ (fun b => b)) by (intros b; apply txt_str). apply map_id. Qed.
Theorem convert_iff d k s v : convert d k s = Some v <-> reads d k s v.
Proof.
  destruct k; cbn [convert reads].
  - split; [intros E; injection E as <-; reflexivity|intros ->; reflexivity].
  - destruct (Utils.exists_path _ _); split; try discriminate; intros H; [injection H as <-; auto|destruct H as [_ ->]; reflexivity|destruct H; discriminate].
  - destruct (py_int (txt s)) as [z|] eqn:E; cbn.
    + apply py_int_iff in E as Hz. split; [intros H; injection H as <-; eauto|]. intros (z' & H & ->). apply py_int_iff in H. congruence.
    + split; [discriminate|]. intros (z' & H & _). apply py_int_iff in H. congruence.
  - unfold int_from. destruct (py_int (txt s)) as [z|] eqn:E.
    + apply py_int_iff in E as Hz. destruct (Z.leb_spec lo z) as [Hl|Hl]; split; try discriminate.
      * intros H. injection H as <-. eauto.
      * intros (z' & [H _] & ->). apply py_int_iff in H. congruence.
      * intros (z' & [H Hl'] & ->). apply py_int_iff in H. assert (z' = z) by congruence. lia.
    + split; [discriminate|]. intros (z' & [H _] & _). apply py_int_iff in H. congruence.
  - destruct (py_float (txt s)) as [z|] eqn:E; cbn -[py_float].
    + apply py_float_iff in E as Hz. split; [intros H; injection H as <-; eauto|]. intros (z' & H & ->). apply py_float_iff in H. congruence.
    + split; [discriminate|]. intros (z' & H & _). apply py_float_iff in H. congruence.
  - destruct (existsb (String.eqb s) l) eqn:E.
    + apply existsb_exists in E. destruct E as (s' & Hs & E). apply String.eqb_eq in E. subst s'. split; [intros H; injection H as <-; auto|intros [_ ->]; reflexivity].
    + split; [discriminate|]. intros [H _]. assert (existsb (String.eqb s) l = true); [|congruence]. apply existsb_exists. exists s. split; [exact H|apply String.eqb_refl].
  - destruct (bool_text (txt s)) as [b|] eqn:E; cbn -[bool_text].
    + apply bool_text_iff in E as Hb. split; [intros H; injection H as <-; eauto|]. intros (b' & H & ->). apply bool_text_iff in H. congruence.
    + split; [discriminate|]. intros (b' & H & _). apply bool_text_iff in H. congruence.
  - destruct (py_int (txt s)) as [z|] eqn:E.
    + apply py_int_iff in E as Hz. split; [intros H; injection H as <-; left; eauto|]. intros [(z' & H & ->) | [H _]]; [apply py_int_iff in H; congruence|]. exfalso. exact (none_not_int _ _ H Hz).
    + destruct (is_none (txt s)) eqn:N.
      * apply is_none_iff in N. split; [intros H; injection H as <-; right; auto|]. intros [(z' & H & ->) | [_ ->]]; [apply py_int_iff in H; congruence|reflexivity].
      * split; [discriminate|]. intros [(z' & H & ->) | [H _]]; [apply py_int_iff in H; congruence|apply is_none_iff in H; congruence].
  - destruct (py_float (txt s)) as [z|] eqn:E.
    + apply py_float_iff in E as Hz. split; [intros H; injection H as <-; left; eauto|]. intros [(z' & H & ->) | [H _]]; [apply py_float_iff in H; congruence|]. exfalso. exact (none_not_float _ _ H Hz).
    + destruct (is_none (txt s)) eqn:N.
      * apply is_none_iff in N. split; [intros H; injection H as <-; right; auto|]. intros [(z' & H & ->) | [_ ->]]; [apply py_float_iff in H; congruence|reflexivity].
      * split; [discriminate|]. intros [(z' & H & ->) | [H _]]; [apply py_float_iff in H; congruence|apply is_none_iff in H; congruence].
  - assert (forall ws vs, Forall2 (fun w x => option_map VNum (py_float w) = Some x) (map txt ws) vs <-> exists xs, Forall2 float_text ws xs /\ vs = map VNum xs) as F.
    { induction ws as [|w ws IH]; intros vs; cbn [map].
      - split; [intros H; inversion H; exists []; split; constructor|]. intros (xs & H & ->). inversion H; constructor.
      - split.
        + intros H. inversion H as [|? v' ? vs' Hv Hl]; subst. apply IH in Hl. destruct Hl as (xs & Hx & ->). destruct (py_float (txt w)) as [x|] eqn:E; [|discriminate]. injection Hv as <-.
          exists (x :: xs). split; [constructor; [apply py_float_iff; exact E|exact Hx]|reflexivity].
        + intros (xs & H & ->). inversion H as [|? x ? xs' Hx Hl]; subst. cbn [map]. constructor; [apply py_float_iff in Hx; rewrite Hx; reflexivity|]. apply IH. eauto. }
    split.
    + destruct (option_mapM _ (words (txt s))) as [vs|] eqn:E; [|discriminate]. intros H. injection H as <-. apply mapM_iff in E.
      rewrite <- (map_txt_str (words (txt s))) in E. apply F in E. destruct E as (xs & Hx & ->). exists (map str (words (txt s))), xs. rewrite map_txt_str. split; [apply words_parts|auto].
    + intros (ws & xs & Hp & Hx & ->). apply words_iff in Hp. rewrite Hp. rewrite (proj2 (mapM_iff _ (map txt ws) (map VNum xs))); [reflexivity|]. apply F. eauto.
  - split.
    + intros H. injection H as <-. exists (map str (words (txt s))). rewrite map_txt_str. split; [apply words_parts|]. rewrite map_map. reflexivity.
    + intros (ws & Hp & ->). apply words_iff in Hp. rewrite Hp, map_map. do 2 f_equal. apply map_ext. intros w. f_equal. apply str_txt.
Qed.

(** ** Accepted command lines *)
Lemma bundle_lengths t s after now : bundle t s after now -> forall x, In x now -> t (fst x) = Some (length (snd x)).
Proof. induction 1 as [|c s after occs H _ IH|c s after H Hs|c after H Hn]; intros x Hx; [destruct Hx| |destruct Hx as [<- | []]; exact H|destruct Hx as [<- | []]; exact H]. destruct Hx as [<- | Hx]; [exact H|exact (IH x Hx)]. Qed.
Lemma writes_lengths t argv occs pos : writes t argv occs pos -> forall x, In x occs -> t (fst x) = Some (length (snd x)).
Proof.
  induction 1 as [|w argv occs pos _ _ IH|pos|f vs argv occs pos H _ _ IH|f v vs argv occs pos H _ _ IH|s after now argv occs pos _ _ _ Hb _ IH]; intros x Hx.
  - destruct Hx.
  - exact (IH x Hx).
  - destruct Hx.
  - destruct Hx as [<- | Hx]; [exact H|exact (IH x Hx)].
  - destruct Hx as [<- | Hx]; [exact H|exact (IH x Hx)].
  - apply in_app_or in Hx. destruct Hx as [Hx | Hx]; [exact (bundle_lengths _ _ _ _ Hb x Hx)|exact (IH x Hx)].
Qed.
(** Spellings of one option only. *)
Definition distinct (c : command) : bool :=
  forallb (fun o => forallb (fun f => match find_opt c f with Some o' => Nat.eqb (o_nargs o') (o_nargs o) | None => false end) (o_flags o ++ o_offs o)) (c_opts c).
Lemma distinct_arity c o f : distinct c = true -> In o (c_opts c) -> In f (spellings o) -> arity c f = Some (o_nargs o).
Proof.
  intros H Ho Hf. unfold distinct in H. rewrite forallb_forall in H. apply H in Ho. rewrite forallb_forall in Ho. apply Ho in Hf. unfold arity.
  destruct (find_opt c f) as [o'|]; [|discriminate]. apply Nat.eqb_eq in Hf. rewrite Hf. reflexivity.
Qed.
Lemma find_opt_none c f : find_opt c f = None <-> forall o, In o (c_opts c) -> ~ In f (o_flags o ++ o_offs o).
Proof.
  unfold find_opt. split.
  - intros E o Ho Hf. apply (find_none _ _ E) in Ho. apply spelt_iff in Hf. congruence.
  - intros H. destruct (find _ _) as [o|] eqn:E; [|reflexivity]. exfalso. apply find_some in E. destruct E as [Ho Hs]. apply spelt_iff in Hs. exact (H o Ho Hs).
Qed.
Lemma help_flag_iff c f : help_flag c f = true <-> In f help /\ forall o, In o (c_opts c) -> ~ In f (o_flags o ++ o_offs o).
Proof.
  unfold help_flag. rewrite andb_true_iff, orb_true_iff, !String.eqb_eq. rewrite <- find_opt_none. cbn [In help]. destruct (find_opt c f); split; intros [H1 H2]; (split; [|try reflexivity; try discriminate]); try discriminate.
  - destruct H1 as [-> | ->]; auto.
  - destruct H1 as [<- | [<- | []]]; auto.
Qed.
Lemma arity_spelling c f n : distinct c = true -> (arity c f = Some n <-> spelling c f n).
Proof.
  intros Hd. split.
  - unfold arity. destruct (find_opt c f) as [o|] eqn:E.
    + intros H. injection H as <-. left. apply find_some in E. destruct E as [Ho Hs]. apply spelt_iff in Hs. eauto.
    + destruct (help_flag c f) eqn:Eh; [|discriminate]. intros H. injection H as <-. right. apply help_flag_iff in Eh. tauto.
  - intros [(o & Ho & Hf & ->) | (Hh & -> & Hn)]; [apply distinct_arity; assumption|]. unfold arity. rewrite (proj2 (find_opt_none c f) Hn).
    rewrite (proj2 (help_flag_iff c f)); [reflexivity|auto].
Qed.
Lemma asks_help_iff c occs : existsb (fun x => help_flag c (fst x)) occs = true <-> asks_help c occs.
Proof.
  rewrite existsb_exists. unfold asks_help. split.
  - intros ([f vs] & Hx & E). apply help_flag_iff in E. exists f, vs. tauto.
  - intros (f & vs & Hx & E). exists (f, vs). split; [exact Hx|]. apply help_flag_iff. exact E.
Qed.
Lemma fits_iff d args : forall pos vs, arg_values d args pos = Some vs <-> fits d args pos vs.
Proof.
  assert (forall k pos l, option_mapM (convert d k) pos = Some l <-> Forall2 (reads d k) pos l) as M.
  { intros k pos l. rewrite mapM_iff. split; intros H; induction H; constructor; try assumption; apply convert_iff; assumption. }
  induction args as [|a args IH]; intros pos vs; cbn [arg_values].
  - split; [destruct pos; [|discriminate]; intros H; injection H as <-; constructor|]. intros H. inversion H. reflexivity.
  - destruct (a_many a) eqn:Em.
    + split.
      * intros H. assert (a_required a = true -> pos <> []) as Hr by (intros Er ->; rewrite Er in H; discriminate).
        assert (args = [] /\ exists l, option_mapM (convert d (a_kind a)) pos = Some l /\ vs = [VTuple l]) as (-> & l & El & ->).
        { destruct pos, (a_required a); try discriminate; destruct args; try discriminate; (split; [reflexivity|]); destruct (option_mapM _ _); try discriminate; injection H as <-; eauto. }
        apply fits_many; [exact Em|exact Hr|]. apply M. exact El.
      * intros H. inversion H as [|? ? p v ps vs' Em' Hv Hf|? ? l Em' Hr Hp]; subst; [congruence|]. apply M in Hp. rewrite Hp.
        destruct pos, (a_required a); try reflexivity. exfalso. exact (Hr eq_refl eq_refl).
    + split.
      * intros H. destruct pos as [|p pos]; [discriminate|]. destruct (convert d (a_kind a) p) as [v|] eqn:Ev; [|discriminate]. destruct (arg_values d args pos) as [l|] eqn:El; [|discriminate].
        injection H as <-. apply fits_one; [exact Em|apply convert_iff; exact Ev|]. apply IH. exact El.
      * intros H. inversion H as [|? ? p v ps l Em' Hv Hf|? ? l Em' Hr Hp]; subst; [|congruence]. apply convert_iff in Hv. rewrite Hv. apply IH in Hf. rewrite Hf. reflexivity.
Qed.
Lemma mapM_exists {A B} (f : A -> option B) l : (exists m, option_mapM f l = Some m) <-> forall a, In a l -> exists b, f a = Some b.
Proof.
  induction l as [|a l IH].
  - split; [intros _ a []|intros _; exists []; reflexivity].
  - split.
    + intros (m & H) x Hx. apply mapM_iff in H. inversion H as [|? b ? bs Hb Hl]; subst. destruct Hx as [<- | Hx]; [eauto|]. apply IH; [|exact Hx]. exists bs. apply mapM_iff. exact Hl.
    + intros H. destruct (H a (or_introl eq_refl)) as (b & Hb). destruct (proj2 IH) as (m & Hm); [intros x Hx; apply H; right; exact Hx|]. exists (b :: m). apply mapM_iff. constructor; [exact Hb|]. apply mapM_iff. exact Hm.
Qed.
Lemma readable_iff d c occs o : distinct c = true -> In o (c_opts c) -> (forall x, In x occs -> arity c (fst x) = Some (length (snd x))) ->
  ((exists v, opt_value d o occs = Some v) <-> readable d occs o).
Proof.
  intros Hd Ho Hl. unfold opt_value, readable. destruct (last_occ o occs) as [[f vs]|] eqn:E.
  - apply last_occ_some in E. assert (length vs = o_nargs o) as Hn.
    { destruct E as (Hf & b & a & E & _). pose proof (distinct_arity c o f Hd Ho Hf) as H1. pose proof (Hl (f, vs)) as H2. rewrite E in H2. specialize (H2 (in_elt _ _ _)). cbn [fst snd] in H2. congruence. }
    transitivity (forall t, In t vs -> exists v, reads d (o_kind o) t v).
    + assert ((exists m, option_mapM (convert d (o_kind o)) vs = Some m) <-> forall t, In t vs -> exists v, reads d (o_kind o) t v) as M.
      { rewrite mapM_exists. split; intros H t Ht; destruct (H t Ht) as (v & Hv); exists v; apply convert_iff; exact Hv. }
      destruct (o_nargs o) as [|[|n]].
      * destruct vs; [|discriminate]. split; [intros _ t []|eauto].
      * destruct vs as [|t [|]]; try discriminate. split.
        -- intros (v & H) u [<- | []]. exists v. apply convert_iff. exact H.
        -- intros H. destruct (H t (or_introl eq_refl)) as (v & Hv). exists v. apply convert_iff. exact Hv.
      * rewrite <- M. destruct (option_mapM _ vs) as [m|]; split; intros (x & H); try discriminate; cbn; eauto.
    + split; [intros H; right; exists f, vs; auto|]. intros [H | (f' & vs' & Hg & H)].
      * destruct E as (Hf & b & a & E & _). exfalso. apply (H (f, vs)); [rewrite E; apply in_elt|exact Hf].
      * apply last_occ_some in E, Hg. assert (vs' = vs) as -> by congruence. exact H.
  - apply last_occ_none in E. split; [intros _; left; exact E|eauto].
Qed.
Theorem parse_accepted d c argv : good_table c = true -> distinct c = true -> ((exists args kw, parse d c argv = Parsed args kw) <-> accepted d c argv).
Proof.
  intros Hg Hd. unfold accepted. split.
  - intros (args & kw & H). unfold parse in H. destruct (scan c None argv) as [[occs pos]|] eqn:E; [|discriminate]. pose proof (scan_writes c Hg argv occs pos E) as Hw.
    destruct (existsb (fun x : string * list string => help_flag c (fst x)) occs) eqn:Eh; [discriminate|]. destruct (arg_values d (c_args c) pos) as [vs|] eqn:Ea; [|discriminate].
    destruct (option_mapM _ (c_opts c)) as [kws|] eqn:Ek; [|discriminate]. exists (arity c), occs, pos. split; [intros f n; apply arity_spelling; exact Hd|]. split; [exact Hw|].
    split; [rewrite <- asks_help_iff; congruence|]. split; [exists vs; apply fits_iff; exact Ea|]. intros o Ho. apply (readable_iff d c); [exact Hd|exact Ho|exact (writes_lengths _ _ _ _ Hw)|].
    destruct (proj1 (mapM_exists _ _) (ex_intro _ _ Ek) o Ho) as (p & Hp). destruct (opt_value d o occs); [eauto|discriminate].
  - intros (t & occs & pos & Ht & Hw & Hh & Hf & Hr).
    assert (forall f, t f = arity c f) as Et.
    { intros f. destruct (t f) as [n|] eqn:E1.
      - apply Ht in E1. symmetry. apply arity_spelling; assumption.
      - destruct (arity c f) as [n|] eqn:E2; [|reflexivity]. apply arity_spelling in E2; [|exact Hd]. apply Ht in E2. congruence. }
    apply (writes_ext t (arity c)) in Hw; [|exact Et]. unfold parse. rewrite (writes_scan c argv occs pos Hg Hw).
    destruct (existsb (fun x : string * list string => help_flag c (fst x)) occs) eqn:Eh; [apply asks_help_iff in Eh; contradiction|]. destruct Hf as (vs & Hf). apply fits_iff in Hf. rewrite Hf.
    destruct (proj2 (mapM_exists (fun o => option_map (pair (o_key o)) (opt_value d o occs)) (c_opts c))) as (kws & Ek).
    { intros o Ho. destruct (proj2 (readable_iff d c occs o Hd Ho (writes_lengths _ _ _ _ Hw)) (Hr o Ho)) as (v & ->). cbn. eauto. }
    rewrite Ek. eauto.
Qed.
Lemma arg_values_length d args : forall pos vs, arg_values d args pos = Some vs -> length vs = length args.
Proof.
  induction args as [|a args IH]; intros pos vs; cbn [arg_values].
  - destruct pos; [|discriminate]. intros E. injection E as <-. reflexivity.
  - destruct (a_many a).
    + destruct pos, (a_required a); try discriminate; destruct args; try discriminate; destruct (option_mapM _ _); try discriminate; intros E; injection E as <-; reflexivity.
    + destruct pos as [|p pos]; [discriminate|]. destruct (convert d (a_kind a) p); [|discriminate]. destruct (arg_values d args pos) as [l|] eqn:E; [|discriminate]. intros H. injection H as <-.
      cbn. rewrite (IH _ _ E). reflexivity.
Qed.
(** ** Keyword arguments *)
Lemma opt_value_delivers d occs o v : opt_value d o occs = Some v -> delivers d occs o v.
Proof.
  unfold opt_value, delivers. destruct (last_occ o occs) as [[f vs]|] eqn:E.
  - apply last_occ_some in E. intros H. right. exists f, vs. split; [exact E|]. destruct (o_nargs o) as [|[|n]].
    + injection H as <-. eexists. split; [reflexivity|]. rewrite existsb_exists. split; [intros (g & Hg & Eg); apply String.eqb_eq in Eg; subst; exact Hg|intros Hf; exists f; split; [exact Hf|apply String.eqb_refl]].
    + destruct vs as [|t [|]]; try discriminate. exists t. split; [reflexivity|apply convert_iff; exact H].
    + destruct (option_mapM _ vs) as [l|] eqn:El; [|discriminate]. injection H as <-. exists l. split; [|reflexivity]. apply mapM_iff in El. clear -El. induction El; constructor; [apply convert_iff; assumption|assumption].
  - apply last_occ_none in E. intros H. injection H as <-. left. split; [exact E|reflexivity].
Qed.
Fixpoint nodupb (l : list string) : bool := match l with [] => true | a :: l => (negb (existsb (String.eqb a) l) && nodupb l)%bool end.
Lemma nodupb_ok l : nodupb l = true -> NoDup l.
Proof.
  induction l as [|a l IH]; [constructor|]. cbn. rewrite andb_true_iff, negb_true_iff. intros [H1 H2]. constructor; [|apply IH; exact H2]. intros Ha.
  assert (existsb (String.eqb a) l = true); [|congruence]. apply existsb_exists. exists a. split; [exact Ha|apply String.eqb_refl].
Qed.
Definition distinct_keys (c : command) : bool := nodupb (map o_key (c_opts c)).
Lemma get_values d occs opts : forall kw, NoDup (map o_key opts) -> option_mapM (fun o => option_map (pair (o_key o)) (opt_value d o occs)) opts = Some kw ->
  forall o, In o opts -> opt_value d o occs = Some (get (o_key o) kw).
Proof.
  induction opts as [|o opts IH]; intros kw Hn H o' Ho; [destruct Ho|]. cbn [map] in Hn. inversion Hn as [|? ? Hk Hn']; subst.
  apply mapM_iff in H. inversion H as [|? p ? kws Hp Hl]; subst. destruct (opt_value d o occs) as [v|] eqn:Ev; [|discriminate]. injection Hp as <-. cbn [get].
  destruct Ho as [<- | Ho]; [rewrite String.eqb_refl; exact Ev|]. destruct (String.eqb_spec (o_key o') (o_key o)) as [E|_].
  - exfalso. apply Hk. rewrite <- E. apply in_map. exact Ho.
  - apply IH; [exact Hn'|apply mapM_iff; exact Hl|exact Ho].
Qed.
Lemma parse_values d c argv args kw occs pos : good_table c = true -> distinct_keys c = true -> writes (takes (flatten c)) argv occs pos ->
  parse d c argv = Parsed args kw -> (forall o, In o (c_opts c) -> opt_value d o occs = Some (get (o_key o) kw)) /\ arg_values d (c_args c) pos = Some args.
Proof.
  intros Hg Hk Hw H. unfold parse in H. rewrite (writes_scan c argv occs pos Hg) in H by (apply (writes_ext (takes (flatten c))); [intros f; symmetry; apply arity_flatten|exact Hw]).
  destruct (existsb (fun x : string * list string => help_flag c (fst x)) occs); [discriminate|]. destruct (arg_values d (c_args c) pos) as [vs|]; [|discriminate].
  destruct (option_mapM _ (c_opts c)) as [kws|] eqn:Ek; [|discriminate]. injection H as <- <-. split; [|reflexivity].
  apply (get_values d occs _ _ (nodupb_ok _ Hk) Ek).
Qed.
Lemma get_del k k' kw : k <> k' -> get k (del k' kw) = get k kw.
Proof.
  intros Hn. induction kw as [|[a v] kw IH]; [reflexivity|]. cbn [del]. destruct (String.eqb_spec k' a) as [<-|].
  - cbn [get]. rewrite (proj2 (String.eqb_neq k k') Hn). exact IH.
  - cbn [get]. rewrite IH. reflexivity.
Qed.
Lemma get_set k k' v kw : k <> k' -> get k (set k' v kw) = get k kw.
Proof. intros Hn. unfold set. cbn [get]. rewrite (proj2 (String.eqb_neq k k') Hn). apply get_del. exact Hn. Qed.
Lemma get_set_same k v kw : get k (set k v kw) = v.
Proof. unfold set. cbn [get]. rewrite String.eqb_refl. reflexivity. Qed.
Lemma get_none_to_inf k kw : k <> "end" -> get k (set_none_to_inf kw) = get k kw.
Proof. intros Hn. unfold set_none_to_inf. destruct (get "end" kw); try reflexivity. apply get_set. exact Hn. Qed.
Lemma get_end_inf kw : get "end" (set_none_to_inf kw) = match get "end" kw with VNone => VNum PInf | v => v end.
Proof. unfold set_none_to_inf. destruct (get "end" kw) eqn:E; try exact E. apply get_set_same. Qed.
