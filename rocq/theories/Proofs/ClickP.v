(** Command lines: the parser of the model accepts exactly the command lines of the specification, with this meaning. *)
From Coq Require Import String Ascii.
From Verif.Base Require Import QcX Res Np Bytes.
From Verif.Model Require Import Text PyText Click.
From Verif.Spec Require Import CliSpec.
From Verif.Proofs Require Import TextP PyTextP.
From Verif.Model Require Utils Formats.
Local Open Scope string_scope.
Local Open Scope list_scope.
Local Notation length := List.length.

(** Texts and strings. *)
Lemma str_txt s : str (txt s) = s. Proof. apply string_txt. Qed.
Lemma txt_str b : txt (str b) = b.
Proof. unfold txt, str. apply list_ascii_of_string_of_list_ascii. Qed.
Lemma txt_inj a b : txt a = txt b -> a = b.
Proof. intros H. rewrite <- (str_txt a), <- (str_txt b), H. reflexivity. Qed.
Lemma str_app a b : str (a ++ b) = (str a ++ str b)%string.
Proof. apply txt_inj. rewrite txt_app, !txt_str. reflexivity. Qed.
Lemma code_dash c : code c = 45%Z <-> c = "-"%char.
Proof. split; [intros H; apply code_inj; exact H|intros ->; reflexivity]. Qed.
Lemma looks_opt_iff w : looks_opt (txt w) = true <-> like_option w.
Proof.
  unfold looks_opt, like_option. destruct w as [|a [|b w]]; cbn [txt list_ascii_of_string]; split; intros H; try discriminate; try (destruct H as (c & s & E); discriminate).
  - apply Z.eqb_eq, code_dash in H. subst a. exists b, w. reflexivity.
  - destruct H as (c & s & E). injection E as -> _ _. reflexivity.
Qed.
Lemma is_short_iff f : is_short (txt f) = true <-> short f.
Proof.
  unfold is_short, short. destruct f as [|a [|b [|c f]]]; cbn [txt list_ascii_of_string]; split; intros H; try discriminate; try (destruct H as (x & E & _); discriminate).
  - apply andb_true_iff in H. destruct H as [H1 H2]. apply Z.eqb_eq, code_dash in H1. subst a. exists b. split; [reflexivity|]. intros ->. discriminate.
  - destruct H as (x & E & N). injection E as -> ->. cbn. destruct (Z.eqb_spec (code x) 45) as [E|]; [|reflexivity]. apply code_dash in E. congruence.
Qed.
Definition no_eq (c : ascii) : Prop := code c <> 61%Z.
Lemma split_eq_none s : Forall no_eq s -> split_eq s = (s, None).
Proof. induction 1 as [|c s Hc _ IH]; [reflexivity|]. cbn. unfold no_eq in Hc. destruct (Z.eqb_spec (code c) 61); [congruence|]. rewrite IH. reflexivity. Qed.
Lemma split_eq_some a b : Forall no_eq a -> split_eq (a ++ "="%char :: b) = (a, Some b).
Proof. induction 1 as [|c s Hc _ IH]; [reflexivity|]. cbn. unfold no_eq in Hc. destruct (Z.eqb_spec (code c) 61); [congruence|]. rewrite IH. reflexivity. Qed.
Lemma split_eq_inv s : match split_eq s with
  | (a, None) => s = a
  | (a, Some b) => s = a ++ "="%char :: b
  end.
Proof.
  induction s as [|c s IH]; cbn; [reflexivity|]. destruct (Z.eqb_spec (code c) 61) as [E|].
  - cbn. f_equal. apply code_inj. exact E.
  - destruct (split_eq s) as [a [b|]]; cbn; f_equal; exact IH.
Qed.

(** Spellings of options begin with a dash and have no '=' in them. *)
Definition good_spelling (f : string) : Prop := like_option f /\ f <> "--" /\ Forall no_eq (txt f).
Definition good_spellingb (f : string) : bool :=
  (looks_opt (txt f) && negb (String.eqb f "--") && forallb (fun c => negb (code c =? 61)%Z) (txt f))%bool.
Definition good_table (c : command) : bool := forallb (fun o => forallb good_spellingb (o_flags o ++ o_offs o)) (c_opts c).
Lemma good_spellingb_ok f : good_spellingb f = true -> good_spelling f.
Proof.
  unfold good_spellingb, good_spelling. intros H. apply andb_true_iff in H. destruct H as [H H3]. apply andb_true_iff in H. destruct H as [H1 H2].
  split; [apply looks_opt_iff; exact H1|]. split; [intros ->; discriminate|]. apply Forall_forall. intros c Hc. rewrite forallb_forall in H3. apply H3 in Hc.
  unfold no_eq. destruct (Z.eqb_spec (code c) 61); [discriminate|assumption].
Qed.
Lemma spelt_iff o f : spelt o f = true <-> In f (o_flags o ++ o_offs o).
Proof.
  unfold spelt. rewrite orb_true_iff, in_app_iff, !existsb_exists.
  split; (intros [(x & Hx & E) | (x & Hx & E)] || intros [Hx | Hx]).
  - apply String.eqb_eq in E. subst. auto.
  - apply String.eqb_eq in E. subst. auto.
  - left. exists f. split; [exact Hx|apply String.eqb_refl].
  - right. exists f. split; [exact Hx|apply String.eqb_refl].
Qed.
Lemma arity_good c f n : good_table c = true -> arity c f = Some n -> good_spelling f.
Proof.
  intros Hg H. unfold arity in H. destruct (find_opt c f) as [o|] eqn:E.
  - unfold find_opt in E. apply find_some in E. destruct E as [Ho Hs]. apply spelt_iff in Hs. unfold good_table in Hg. rewrite forallb_forall in Hg.
    apply Hg in Ho. rewrite forallb_forall in Ho. apply good_spellingb_ok, Ho. exact Hs.
  - destruct (help_flag c f) eqn:Eh; [|discriminate]. unfold help_flag in Eh. apply andb_true_iff in Eh. destruct Eh as [Eh _]. apply orb_true_iff in Eh.
    apply good_spellingb_ok. destruct Eh as [Eh | Eh]; apply String.eqb_eq in Eh; subst; reflexivity.
Qed.

(** ** Options which wait for values *)
Lemma scan_pend c f : forall vs n got rest, (length got + length vs = n)%nat -> vs <> [] ->
  scan c (Some (f, n, got)) (vs ++ rest) = match scan c None rest with Some (l, p) => Some ((f, got ++ vs) :: l, p) | None => None end.
Proof.
  induction vs as [|v vs IH]; intros n got rest Hn N; [congruence|]. cbn [app scan]. rewrite app_length. cbn [length] in *.
  destruct vs as [|v' vs].
  - destruct (Nat.leb_spec n (length got + 1)); [|cbn in *; lia]. cbn [app]. reflexivity.
  - destruct (Nat.leb_spec n (length got + 1)); [cbn in *; lia|]. rewrite IH; [|rewrite app_length; cbn in *; lia|discriminate].
    rewrite <- app_assoc. reflexivity.
Qed.
Lemma scan_pend_inv c f : forall argv n got l p, scan c (Some (f, n, got)) argv = Some (l, p) -> (length got < n)%nat ->
  exists vs rest l', argv = vs ++ rest /\ (length got + length vs = n)%nat /\ scan c None rest = Some (l', p) /\ l = (f, got ++ vs) :: l'.
Proof.
  induction argv as [|a argv IH]; intros n got l p H Hn; cbn [scan] in H; [discriminate|].
  destruct (Nat.leb_spec n (length (got ++ [a]))) as [Hle|Hgt]; rewrite app_length in *; cbn [length] in *.
  - destruct (scan c None argv) as [[l' p']|] eqn:E; [|discriminate]. injection H as <- <-. exists [a], argv, l'. repeat split; try assumption. cbn. lia.
  - apply IH in H; [|rewrite app_length; cbn; lia]. destruct H as (vs & rest & l' & -> & Hl & E & ->). exists (a :: vs), rest, l'. rewrite app_length in Hl. cbn [length] in *.
    repeat split; try assumption; [lia|]. rewrite <- app_assoc. reflexivity.
Qed.

(** ** Short options in one word *)
Lemma dash_str b : str [dash; b] = String "-" (String b "").
Proof. reflexivity. Qed.
Lemma bundle_shorts c s after now : bundle (arity c) s after now ->
  after = [] /\ shorts c (txt s) = Some (now, None) \/
  exists f n got l, shorts c (txt s) = Some (l, Some (f, n, got)) /\ now = l ++ [(f, got ++ after)] /\ (length got + length after = n)%nat /\ (0 < n)%nat.
Proof.
  induction 1 as [| b s after occs Ht Hb IH | b s after Ht Hs | b after Ht Ha].
  - left. split; reflexivity.
  - cbn [txt list_ascii_of_string shorts]. rewrite dash_str, Ht. fold (txt s). destruct IH as [(-> & ->) | (f & n & got & l & -> & -> & Hn & Hp)].
    + left. split; reflexivity.
    + right. exists f, n, got, ((String "-" (String b ""), []) :: l). repeat split; assumption.
  - right. cbn [txt list_ascii_of_string shorts]. rewrite dash_str, Ht. fold (txt s). destruct (txt s) as [|a t] eqn:E.
    { exfalso. apply Hs. apply txt_inj. exact E. }
    rewrite <- E, str_txt. exists (String "-" (String b "")), (S (length after)), [s], []. repeat split; try lia.
  - right. cbn [txt list_ascii_of_string shorts]. rewrite dash_str, Ht. destruct after as [|a after]; [congruence|]. cbn [length].
    exists (String "-" (String b "")), (S (length after)), [], []. repeat split; cbn; lia.
Qed.
Lemma shorts_bundle c : forall s l pend, shorts c (txt s) = Some (l, pend) ->
  match pend with
  | None => bundle (arity c) s [] l
  | Some (f, n, got) => (length got <= n)%nat /\ (0 < n)%nat /\ (length got <= 1)%nat /\ forall after, (length got + length after = n)%nat -> bundle (arity c) s after (l ++ [(f, got ++ after)])
  end.
Proof.
  induction s as [|b s IH]; intros l pend H; cbn [txt list_ascii_of_string shorts] in H.
  - injection H as <- <-. constructor.
  - rewrite dash_str in H. fold (txt s) in H. destruct (arity c (String "-" (String b ""))) as [[|n]|] eqn:Ea; [| |discriminate].
    + destruct (shorts c (txt s)) as [[l' p']|] eqn:Es; [|discriminate]. injection H as <- <-. specialize (IH _ _ eq_refl). destruct p' as [[[f n] got]|].
      * destruct IH as (H1 & H2 & H3 & H4). repeat split; try assumption. intros after Hn. cbn [app]. constructor; [exact Ea|]. apply H4. exact Hn.
      * constructor; assumption.
    + destruct (txt s) as [|a t] eqn:Et.
      * assert (s = "") as -> by (apply txt_inj; exact Et). injection H as <- <-. cbn [length]. repeat split; try lia. intros after Hn. cbn [app]. apply bun_after; [rewrite Ea; f_equal; lia|].
        intros ->. cbn in Hn. lia.
      * rewrite <- Et, str_txt in H. injection H as <- <-. cbn [length]. repeat split; try lia. intros after Hn. cbn [app]. apply bun_value; [rewrite Ea; f_equal; lia|].
        intros ->. discriminate.
Qed.

(** ** Words *)
Lemma token_long c f : good_spelling f -> ~ short f -> forall n, arity c f = Some n -> token c f = Some (match n with 0%nat => ([(f, [])], None) | S _ => ([], Some (f, n, [])) end).
Proof.
  intros (_ & _ & Hq) Hs n Ha. unfold token. rewrite split_eq_none by exact Hq. destruct (is_short (txt f)) eqn:E; [apply is_short_iff in E; contradiction|].
  rewrite str_txt, Ha. destruct n; reflexivity.
Qed.
Lemma token_equals c f v : good_spelling f -> ~ short f -> forall n, arity c f = Some (S n) -> token c (f ++ "=" ++ v)%string = Some ([], Some (f, S n, [v])).
Proof.
  intros (_ & _ & Hq) Hs n Ha. unfold token. rewrite txt_app. change (txt ("=" ++ v)) with ("="%char :: txt v). rewrite split_eq_some by exact Hq.
  destruct (is_short (txt f)) eqn:E; [apply is_short_iff in E; contradiction|]. rewrite !str_txt, Ha. reflexivity.
Qed.
Lemma token_short c s : s <> "" -> (forall t, s <> String "-" t) -> ~ names_long (arity c) (String "-" s) -> token c (String "-" s) = shorts c (txt s).
Proof.
  intros N Hd Hl. unfold token. pose proof (split_eq_inv (txt (String "-" s))) as E. destruct (split_eq (txt (String "-" s))) as [l v].
  assert ((if is_short l then None else arity c (str l)) = None) as ->.
  { destruct (is_short l) eqn:Es; [reflexivity|]. destruct (arity c (str l)) as [n|] eqn:Ea; [|reflexivity]. exfalso. apply Hl. exists (str l).
    split; [intros Hs; apply is_short_iff in Hs; rewrite txt_str in Hs; congruence|]. split; [congruence|].
    destruct v as [v|].
    - right. exists (str v). apply txt_inj. rewrite E, txt_app. change (txt ("=" ++ str v)) with ("="%char :: txt (str v)). rewrite !txt_str. reflexivity.
    - left. apply txt_inj. rewrite txt_str. exact E. }
  destruct s as [|b s]; [congruence|]. cbn [txt list_ascii_of_string tl]. destruct (Z.eqb_spec (code b) 45) as [Eb|]; [|reflexivity].
  apply code_dash in Eb. subst b. exfalso. apply (Hd s). reflexivity.
Qed.
Lemma like_option_dash w : like_option w -> exists s, w = String "-" s /\ s <> "".
Proof. intros (c & s & ->). exists (String c s). split; [reflexivity|discriminate]. Qed.

Theorem writes_scan c argv occs pos : good_table c = true -> writes (arity c) argv occs pos -> scan c None argv = Some (occs, pos).
Proof.
  intros Hg. induction 1 as [| w argv occs pos Hw _ IH | pos | f vs argv occs pos Ht Hs _ IH | f v vs argv occs pos Ht Hs _ IH | s after now argv occs pos Hn Hd Hl Hb _ IH].
  - reflexivity.
  - cbn [scan]. destruct (String.eqb_spec w "--") as [->|_]; [exfalso; apply Hw; exists "-"%char, ""; reflexivity|].
    destruct (looks_opt (txt w)) eqn:E; [apply looks_opt_iff in E; contradiction|]. rewrite IH. reflexivity.
  - reflexivity.
  - pose proof (arity_good _ _ _ Hg Ht) as Hf. cbn [scan]. destruct Hf as (Ho & Hdd & Hq). destruct (String.eqb_spec f "--"); [congruence|].
    rewrite (proj2 (looks_opt_iff f) Ho). rewrite (token_long c f (conj Ho (conj Hdd Hq)) Hs _ Ht). destruct vs as [|v vs]; cbn [length app].
    + rewrite IH. reflexivity.
    + cbn [Nat.leb]. change (v :: vs ++ argv) with ((v :: vs) ++ argv). rewrite scan_pend; [|reflexivity|discriminate]. rewrite IH. reflexivity.
  - pose proof (arity_good _ _ _ Hg Ht) as Hf. cbn [scan]. destruct (String.eqb_spec (f ++ "=" ++ v)%string "--") as [E|_].
    { exfalso. destruct Hf as ((c0 & s & ->) & _). cbn in E. injection E as _ E. destruct s; discriminate. }
    rewrite (proj2 (looks_opt_iff _)) by (destruct Hf as ((c0 & s & ->) & _); cbn; eexists; eexists; reflexivity).
    rewrite (token_equals c f v Hf Hs _ Ht). cbn [length]. destruct vs as [|v' vs]; cbn [length Nat.leb app].
    + rewrite IH. reflexivity.
    + change (v' :: vs ++ argv) with ((v' :: vs) ++ argv). rewrite scan_pend; [|reflexivity|discriminate]. rewrite IH. reflexivity.
  - cbn [scan]. destruct (String.eqb_spec (String "-" s) "--") as [E|_]; [exfalso; injection E as E; apply (Hd ""); exact E|].
    rewrite (proj2 (looks_opt_iff _)) by (destruct s as [|b s]; [congruence|eexists; eexists; reflexivity]).
    rewrite token_short by assumption. destruct (bundle_shorts _ _ _ _ Hb) as [(-> & ->) | (f & n & got & l & -> & -> & Hlen & Hp)].
    + cbn [app]. rewrite IH. reflexivity.
    + destruct (Nat.leb_spec n (length got)) as [Hle|Hgt].
      * destruct after as [|a after]; [|cbn in Hlen; lia]. cbn [app]. rewrite IH, app_nil_r, <- app_assoc. reflexivity.
      * rewrite scan_pend; [|exact Hlen|intros ->; cbn in Hlen; lia]. rewrite IH, <- app_assoc. reflexivity.
Qed.

Lemma token_inv c a l pend : like_option a -> a <> "--" -> token c a = Some (l, pend) ->
  (exists f, a = f /\ ~ short f /\ arity c f = Some 0%nat /\ l = [(f, [])] /\ pend = None) \/
  (exists f n, a = f /\ ~ short f /\ arity c f = Some (S n) /\ l = [] /\ pend = Some (f, S n, [])) \/
  (exists f n v, a = (f ++ "=" ++ v)%string /\ ~ short f /\ arity c f = Some (S n) /\ l = [] /\ pend = Some (f, S n, [v])) \/
  (exists s, a = String "-" s /\ s <> "" /\ (forall t, s <> String "-" t) /\ (good_table c = true -> ~ names_long (arity c) (String "-" s)) /\ shorts c (txt s) = Some (l, pend)).
Proof.
  intros Ho Hdd. unfold token. pose proof (split_eq_inv (txt a)) as E. destruct (split_eq (txt a)) as [f v] eqn:Esp.
  assert (forall n, (if is_short f then None else arity c (str f)) = Some n -> ~ short (str f) /\ arity c (str f) = Some n) as Hlong.
  { intros n H. destruct (is_short f) eqn:Es; [discriminate|]. split; [|exact H]. intros Hs. apply is_short_iff in Hs. rewrite txt_str in Hs. congruence. }
  destruct (if is_short f then None else arity c (str f)) as [[|n]|] eqn:El; destruct v as [v|]; intros H; try discriminate.
  - left. exists (str f). injection H as <- <-. destruct (Hlong _ eq_refl). repeat split; try assumption. apply txt_inj. rewrite txt_str. exact E.
  - right. right. left. exists (str f), n, (str v). injection H as <- <-. destruct (Hlong _ eq_refl). repeat split; try assumption.
    apply txt_inj. rewrite E, txt_app. change (txt ("=" ++ str v)) with ("="%char :: txt (str v)). rewrite !txt_str. reflexivity.
  - right. left. exists (str f), n. injection H as <- <-. destruct (Hlong _ eq_refl). repeat split; try assumption. apply txt_inj. rewrite txt_str. exact E.
  - (* short, with '=' inside *)
    right. right. right. destruct (like_option_dash _ Ho) as (s & -> & Hs). exists s. split; [reflexivity|]. split; [exact Hs|].
    destruct s as [|b s]; [congruence|]. cbn [txt list_ascii_of_string tl] in H. destruct (Z.eqb_spec (code b) 45) as [Eb|Nb]; [discriminate|].
    split; [intros t Et; injection Et as -> _; apply Nb; reflexivity|]. split; [|exact H].
    intros Hg (g & Hsg & Ht & Hw). destruct (arity c g) as [m|] eqn:Ea; [|congruence]. pose proof (arity_good _ _ _ Hg Ea) as (_ & _ & Hq).
    assert (f = txt g) as Ef.
    { destruct Hw as [Hw | (x & Hw)]; rewrite Hw in Esp.
      - rewrite split_eq_none in Esp by exact Hq. discriminate.
      - rewrite txt_app in Esp. change (txt ("=" ++ x)) with ("="%char :: txt x) in Esp. rewrite split_eq_some in Esp by exact Hq. injection Esp as -> _. reflexivity. }
    subst f. destruct (is_short (txt g)) eqn:Es; [apply is_short_iff in Es; contradiction|]. rewrite str_txt in El. congruence.
  - right. right. right. destruct (like_option_dash _ Ho) as (s & -> & Hs). exists s. split; [reflexivity|]. split; [exact Hs|].
    destruct s as [|b s]; [congruence|]. cbn [txt list_ascii_of_string tl] in H. destruct (Z.eqb_spec (code b) 45) as [Eb|Nb]; [discriminate|].
    split; [intros t Et; injection Et as -> _; apply Nb; reflexivity|]. split; [|exact H].
    intros Hg (g & Hsg & Ht & Hw). destruct (arity c g) as [m|] eqn:Ea; [|congruence]. pose proof (arity_good _ _ _ Hg Ea) as (_ & _ & Hq).
    assert (f = txt g) as Ef.
    { destruct Hw as [Hw | (x & Hw)]; rewrite Hw in Esp.
      - rewrite split_eq_none in Esp by exact Hq. injection Esp as ->. reflexivity.
      - rewrite txt_app in Esp. change (txt ("=" ++ x)) with ("="%char :: txt x) in Esp. rewrite split_eq_some in Esp by exact Hq. discriminate. }
    rewrite Ef in El. destruct (is_short (txt g)) eqn:Es; [apply is_short_iff in Es; contradiction|]. rewrite str_txt in El. congruence.
Qed.
Theorem scan_writes c : good_table c = true -> forall argv occs pos, scan c None argv = Some (occs, pos) -> writes (arity c) argv occs pos.
Proof.
  intros Hg argv. remember (length argv) as k eqn:Hk. revert argv Hk. induction k as [k IH] using lt_wf_ind. intros argv Hk occs pos H.
  destruct argv as [|a rest]; cbn [scan] in H; [injection H as <- <-; constructor|].
  assert (forall rest', (length rest' <= length rest)%nat -> forall l p, scan c None rest' = Some (l, p) -> writes (arity c) rest' l p) as IH'.
  { intros rest' Hle l p E. apply (IH (length rest')); [subst k; cbn; lia|reflexivity|exact E]. }
  destruct (String.eqb_spec a "--") as [->|Nd]; [injection H as <- <-; constructor|].
  destruct (looks_opt (txt a)) eqn:Eo.
  - apply looks_opt_iff in Eo. destruct (token c a) as [[l pend]|] eqn:Et; [|discriminate].
    destruct (token_inv _ _ _ _ Eo Nd Et) as [(f & -> & Hs & Ha & -> & ->) | [(f & n & -> & Hs & Ha & -> & ->) | [(f & n & v & -> & Hs & Ha & -> & ->) | (s & -> & Hns & Hd & Hl & Hsh)]]].
    + destruct (scan c None rest) as [[l' p']|] eqn:E; [|discriminate]. injection H as <- <-. cbn [app].
      change (f :: rest) with (f :: [] ++ rest). apply wr_long; [exact Ha|exact Hs|apply IH'; [lia|exact E]].
    + cbn [length Nat.leb app] in H. destruct (scan c (Some (f, S n, [])) rest) as [[l' p']|] eqn:E; [|discriminate]. injection H as <- <-.
      apply scan_pend_inv in E; [|cbn; lia]. destruct E as (vs & rest' & l'' & -> & Hn & E & ->). cbn [length app plus] in *.
      apply wr_long; [rewrite Ha, <- Hn; reflexivity|exact Hs|apply IH'; [rewrite app_length; lia|exact E]].
    + cbn [length Nat.leb app] in H. destruct n as [|n].
      * cbn [Nat.leb] in H. destruct (scan c None rest) as [[l' p']|] eqn:E; [|discriminate]. injection H as <- <-.
        change ((f ++ "=" ++ v)%string :: rest) with ((f ++ "=" ++ v)%string :: [] ++ rest). apply wr_equals; [exact Ha|exact Hs|apply IH'; [lia|exact E]].
      * cbn [Nat.leb] in H. destruct (scan c (Some (f, S (S n), [v])) rest) as [[l' p']|] eqn:E; [|discriminate]. injection H as <- <-.
        apply scan_pend_inv in E; [|cbn; lia]. destruct E as (vs & rest' & l'' & -> & Hn & E & ->). cbn [length app plus] in *.
        apply wr_equals; [rewrite Ha; f_equal; lia|exact Hs|apply IH'; [rewrite app_length; lia|exact E]].
    + specialize (Hl Hg). apply shorts_bundle in Hsh. destruct pend as [[[f n] got]|].
      * destruct Hsh as (H1 & H2 & H3 & H4). destruct (Nat.leb_spec n (length got)) as [Hle|Hgt].
        -- destruct (scan c None rest) as [[l' p']|] eqn:E; [|discriminate]. injection H as <- <-.
           change (String "-" s :: rest) with (String "-" s :: [] ++ rest). replace (l ++ (f, got) :: l') with ((l ++ [(f, got ++ [])]) ++ l') by (rewrite app_nil_r, <- app_assoc; reflexivity).
           apply wr_short; try assumption; [apply H4; cbn; lia|apply IH'; [lia|exact E]].
        -- destruct (scan c (Some (f, n, got)) rest) as [[l' p']|] eqn:E; [|discriminate]. injection H as <- <-.
           apply scan_pend_inv in E; [|exact Hgt]. destruct E as (vs & rest' & l'' & -> & Hn & E & ->).
           replace (l ++ (f, got ++ vs) :: l'') with ((l ++ [(f, got ++ vs)]) ++ l'') by (rewrite <- app_assoc; reflexivity).
           apply wr_short; try assumption; [apply H4; exact Hn|apply IH'; [rewrite app_length; lia|exact E]].
      * destruct (scan c None rest) as [[l' p']|] eqn:E; [|discriminate]. injection H as <- <-.
        change (String "-" s :: rest) with (String "-" s :: [] ++ rest). apply wr_short; try assumption. apply IH'; [lia|exact E].
  - destruct (scan c None rest) as [[l' p']|] eqn:E; [|discriminate]. injection H as <- <-. apply wr_word; [|apply IH'; [lia|exact E]].
    intros Hc. apply looks_opt_iff in Hc. congruence.
Qed.
