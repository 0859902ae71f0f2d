(** Values of options, and what the commands do with them. *)
From Coq Require Import String Ascii.
From Verif.Base Require Import QcX Res Np Bytes.
From Verif.Model Require Import Text PyText Click Cli.
From Verif.Spec Require Import CliSpec.
From Verif.Proofs Require Import TextP PyTextP ClickP.
From Verif.Model Require Utils Formats Average.
Local Open Scope string_scope.
Local Open Scope list_scope.
Local Notation length := List.length.

(** ** Spellings as a table *)
Definition flatten (c : command) : list (string * nat) :=
  flat_map (fun o => map (fun f => (f, o_nargs o)) (o_flags o ++ o_offs o)) (c_opts c) ++ [("-h", 0%nat); ("--help", 0%nat)].
Lemma takes_app f (l m : list (string * nat)) : takes (l ++ m) f = match takes l f with Some x => Some x | None => takes m f end.
Proof. induction l as [|[g x] l IH]; cbn; [reflexivity|]. destruct (String.eqb f g); [reflexivity|exact IH]. Qed.
Lemma takes_same f (x : nat) fs : takes (map (fun g => (g, x)) fs) f = if existsb (String.eqb f) fs then Some x else None.
Proof. induction fs as [|g fs IH]; cbn; [reflexivity|]. destruct (String.eqb f g); [reflexivity|exact IH]. Qed.
Lemma arity_flatten c f : arity c f = takes (flatten c) f.
Proof.
  unfold arity, flatten, help_flag, find_opt. rewrite takes_app. induction (c_opts c) as [|o l IH].
  - cbn. destruct (String.eqb f "-h"); [reflexivity|]. destruct (String.eqb f "--help"); reflexivity.
  - cbn [find flat_map]. rewrite takes_app, takes_same, existsb_app. unfold spelt at 1 3. destruct (existsb (String.eqb f) (o_flags o) || existsb (String.eqb f) (o_offs o))%bool; [reflexivity|exact IH].
Qed.
Lemma bundle_ext t t' s after now : (forall f, t f = t' f) -> bundle t s after now -> bundle t' s after now.
Proof. intros E. induction 1; [constructor|apply bun_flag|apply bun_value|apply bun_after]; rewrite <- ?E; assumption. Qed.
Lemma names_long_ext t t' w : (forall f, t f = t' f) -> names_long t w -> names_long t' w.
Proof. intros E (f & H1 & H2 & H3). exists f. rewrite <- E. auto. Qed.
Lemma writes_ext t t' argv occs pos : (forall f, t f = t' f) -> writes t argv occs pos -> writes t' argv occs pos.
Proof.
  intros E. induction 1 as [| | | | | s after now argv occs pos Hn Hd Hl Hb _ IH].
  - constructor.
  - apply wr_word; assumption.
  - constructor.
  - apply wr_long; rewrite <- ?E; assumption.
  - apply wr_equals; rewrite <- ?E; assumption.
  - apply wr_short; try assumption.
    + intros H. apply Hl. apply (names_long_ext t' t); [intros f; symmetry; apply E|exact H].
    + apply (bundle_ext t t'); assumption.
Qed.

(** ** The last occurrence *)
Definition spellings (o : opt) : list string := o_flags o ++ o_offs o.
Lemma last_occ_none o l : last_occ o l = None <-> not_given l (spellings o).
Proof.
  unfold not_given. induction l as [|x l IH]; cbn [last_occ]; [split; [intros _ y []|reflexivity]|].
  destruct (last_occ o l) as [y|].
  - split; [discriminate|]. intros H. destruct IH as [_ IH]. assert (Some y = None) by (apply IH; intros z Hz; apply H; right; exact Hz). discriminate.
  - destruct (spelt o (fst x)) eqn:E.
    + split; [discriminate|]. intros H. exfalso. apply (H x); [left; reflexivity|]. apply spelt_iff. exact E.
    + split; [|reflexivity]. intros _ y [<- | Hy] Hs; [apply spelt_iff in Hs; congruence|]. apply (proj1 IH eq_refl y Hy Hs).
Qed.
Lemma last_occ_some o l f vs : last_occ o l = Some (f, vs) <-> given l (spellings o) f vs.
Proof.
  unfold given. induction l as [|x l IH]; cbn [last_occ].
  - split; [discriminate|]. intros (_ & before & after & E & _). destruct before; discriminate.
  - destruct (last_occ o l) as [y|] eqn:El.
    + split.
      * intros H. injection H as ->. destruct (proj1 IH eq_refl) as (Hs & before & after & -> & Ha). split; [exact Hs|]. exists (x :: before), after. split; [reflexivity|exact Ha].
      * intros (Hs & before & after & E & Ha). apply IH. split; [exact Hs|]. destruct before as [|b before].
        -- exfalso. injection E as -> <-. assert (not_given l (spellings o)) as H by (intros z Hz; apply Ha; exact Hz). apply last_occ_none in H. congruence.
        -- injection E as -> ->. exists before, after. split; [reflexivity|exact Ha].
    + apply last_occ_none in El. destruct (spelt o (fst x)) eqn:Es.
      * split.
        -- intros H. injection H as ->. cbn [fst] in Es. split; [apply spelt_iff; exact Es|]. exists [], l. split; [reflexivity|exact El].
        -- intros (Hs & before & after & E & Ha). destruct before as [|b before]; [injection E as -> _; reflexivity|].
           exfalso. injection E as -> ->. apply (El (f, vs)); [apply in_or_app; right; left; reflexivity|exact Hs].
      * split; [discriminate|]. intros (Hs & before & after & E & Ha). exfalso. destruct before as [|b before].
        -- injection E as -> _. cbn [fst] in Es. apply spelt_iff in Hs. congruence.
        -- injection E as -> ->. apply (El (f, vs)); [apply in_or_app; right; left; reflexivity|exact Hs].
Qed.

(** ** Values of texts *)
Lemma convert_int d s z : int_text s z -> convert d KInt s = Some (VInt z).
Proof. intros H. cbn. rewrite (proj2 (py_int_iff _ _) H). reflexivity. Qed.
Lemma convert_range d lo s z : int_from lo s z -> convert d (KRange lo) s = Some (VInt z).
Proof. intros [H Hl]. cbn. rewrite (proj2 (py_int_iff _ _) H), (proj2 (Z.leb_le _ _) Hl). reflexivity. Qed.
Lemma convert_float d s x : float_text s x -> convert d KFloat s = Some (VNum x).
Proof. intros H. cbn. rewrite (proj2 (py_float_iff _ _) H). reflexivity. Qed.
Lemma convert_choice d l s : In s l -> convert d (KChoice l) s = Some (VText s).
Proof. intros H. cbn. rewrite (proj2 (existsb_exists _ _)); [reflexivity|]. exists s. split; [exact H|apply String.eqb_refl]. Qed.
Lemma none_not_int s z : none_text s -> ~ int_text s z.
Proof.
  intros H Hi. apply py_int_iff in Hi. revert Hi. unfold py_int, none_text, any_case in *. remember (txt s) as t eqn:Et. clear Et.
  inversion H as [|? c1 ? ? H1 Hr1]; subst. inversion Hr1 as [|? c2 ? ? H2 Hr2]; subst. inversion Hr2 as [|? c3 ? ? H3 Hr3]; subst. inversion Hr3 as [|? c4 ? ? H4 Hr4]; subst. inversion Hr4; subst.
  assert (c1 = "n"%char \/ c1 = "N"%char) as [-> | ->] by (destruct H1 as [-> | [_ E]]; [left; reflexivity|right; apply code_inj; exact E]).
  all: assert (c2 = "o"%char \/ c2 = "O"%char) as [-> | ->] by (destruct H2 as [-> | [_ E]]; [left; reflexivity|right; apply code_inj; exact E]).
  all: assert (c3 = "n"%char \/ c3 = "N"%char) as [-> | ->] by (destruct H3 as [-> | [_ E]]; [left; reflexivity|right; apply code_inj; exact E]).
  all: assert (c4 = "e"%char \/ c4 = "E"%char) as [-> | ->] by (destruct H4 as [-> | [_ E]]; [left; reflexivity|right; apply code_inj; exact E]).
  all: discriminate.
Qed.
Lemma none_not_float s x : none_text s -> ~ float_text s x.
Proof.
  intros H Hi. apply py_float_iff in Hi. revert Hi. unfold py_float, none_text, any_case in *. remember (txt s) as t eqn:Et. clear Et.
  inversion H as [|? c1 ? ? H1 Hr1]; subst. inversion Hr1 as [|? c2 ? ? H2 Hr2]; subst. inversion Hr2 as [|? c3 ? ? H3 Hr3]; subst. inversion Hr3 as [|? c4 ? ? H4 Hr4]; subst. inversion Hr4; subst.
  assert (c1 = "n"%char \/ c1 = "N"%char) as [-> | ->] by (destruct H1 as [-> | [_ E]]; [left; reflexivity|right; apply code_inj; exact E]).
  all: assert (c2 = "o"%char \/ c2 = "O"%char) as [-> | ->] by (destruct H2 as [-> | [_ E]]; [left; reflexivity|right; apply code_inj; exact E]).
  all: assert (c3 = "n"%char \/ c3 = "N"%char) as [-> | ->] by (destruct H3 as [-> | [_ E]]; [left; reflexivity|right; apply code_inj; exact E]).
  all: assert (c4 = "e"%char \/ c4 = "E"%char) as [-> | ->] by (destruct H4 as [-> | [_ E]]; [left; reflexivity|right; apply code_inj; exact E]).
  all: cbn; discriminate.
Qed.
Lemma is_none_iff s : is_none (txt s) = true <-> none_text s.
Proof. apply none_iff. Qed.
(** ** Values as options *)
Definition vopt {A} (f : A -> val) (o : option A) : val := match o with None => VNone | Some a => f a end.
Definition vnum (q : Qc) : val := VNum (Fin q).
Lemma convert_opt_float d s o : number_or_none s o -> convert d KOptFloat s = Some (vopt vnum o).
Proof.
  intros [(a & H & ->) | (H & ->)]; cbn -[is_none py_float].
  - rewrite (proj2 (py_float_iff _ _) H). reflexivity.
  - destruct (py_float (txt s)) as [x|] eqn:E; [apply py_float_iff in E; exfalso; apply (none_not_float _ _ H E)|].
    rewrite (proj2 (is_none_iff _) H). reflexivity.
Qed.
Lemma convert_opt_int d s o : int_or_none s o -> convert d KOptInt s = Some (vopt VInt o).
Proof.
  intros [(a & H & ->) | (H & ->)]; cbn -[is_none py_int].
  - rewrite (proj2 (py_int_iff _ _) H). reflexivity.
  - destruct (py_int (txt s)) as [x|] eqn:E; [apply py_int_iff in E; exfalso; apply (none_not_int _ _ H E)|].
    rewrite (proj2 (is_none_iff _) H). reflexivity.
Qed.

(** ** Values of options *)
Lemma value_one {A} d occs fs key k (reads : string -> A -> Prop) (inj : A -> val) default x :
  (forall s a, reads s a -> convert d k s = Some (inj a)) -> chosen occs fs reads default x -> opt_value d (one fs key k (inj default)) occs = Some (inj x).
Proof.
  intros Hr [(f & v & Hg & Hv) | (Hn & ->)]; unfold opt_value.
  - rewrite (proj2 (last_occ_some (one fs key k (inj default)) occs f [v])); [cbn; apply Hr; exact Hv|]. unfold spellings. cbn. rewrite app_nil_r. exact Hg.
  - rewrite (proj2 (last_occ_none (one fs key k (inj default)) occs)); [reflexivity|]. unfold spellings. cbn. rewrite app_nil_r. exact Hn.
Qed.
Lemma value_two {A} d occs fs key k (reads : string -> A -> Prop) (inj : A -> val) default x :
  (forall s a, reads s a -> convert d k s = Some (inj a)) -> chosen2 occs fs reads default x ->
  opt_value d (two fs key k (VTuple [inj (fst default); inj (snd default)])) occs = Some (VTuple [inj (fst x); inj (snd x)]).
Proof.
  intros Hr [(f & v & w & Hg & Hv & Hw) | (Hn & ->)]; unfold opt_value.
  - rewrite (proj2 (last_occ_some (two fs key k _) occs f [v; w])); [|unfold spellings; cbn; rewrite app_nil_r; exact Hg].
    cbn. rewrite (Hr _ _ Hv), (Hr _ _ Hw). reflexivity.
  - rewrite (proj2 (last_occ_none (two fs key k _) occs)); [reflexivity|]. unfold spellings. cbn. rewrite app_nil_r. exact Hn.
Qed.
Lemma value_flag d occs on off key default b : switched occs on off default b -> opt_value d (flag on off key default) occs = Some (VBool b).
Proof.
  intros [(f & Hg & Hb) | (Hn & ->)]; unfold opt_value.
  - rewrite (proj2 (last_occ_some (flag on off key default) occs f [])); [|exact Hg]. cbn. do 2 f_equal.
    apply eq_true_iff_eq. rewrite existsb_exists, Hb. split.
    + intros (g & Hg' & E). apply String.eqb_eq in E. subst. exact Hg'.
    + intros H. exists f. split; [exact H|apply String.eqb_refl].
  - rewrite (proj2 (last_occ_none (flag on off key default) occs)); [reflexivity|]. exact Hn.
Qed.

(** ** Parsing *)
Lemma mapM_values d occs opts vals : Forall2 (fun o v => opt_value d o occs = Some v) opts vals ->
  option_mapM (fun o => option_map (pair (o_key o)) (opt_value d o occs)) opts = Some (combine (map o_key opts) vals).
Proof. induction 1 as [|o v opts vals H _ IH]; [reflexivity|]. cbn. rewrite H. cbn. unfold option_mapM in IH. rewrite IH. reflexivity. Qed.
Lemma parse_ok d c tbl argv occs pos args vals : flatten c = tbl -> good_table c = true ->
  writes (takes tbl) argv occs pos -> not_given occs ["-h"; "--help"] -> arg_values d (c_args c) pos = Some args ->
  Forall2 (fun o v => opt_value d o occs = Some v) (c_opts c) vals -> parse d c argv = Parsed args (combine (map o_key (c_opts c)) vals).
Proof.
  intros Et Hg Hw Hn Ha Hv. unfold parse. rewrite (writes_scan c argv occs pos Hg); [|apply (writes_ext (takes tbl)); [|exact Hw]; intros f; subst tbl; symmetry; apply arity_flatten].
  destruct (existsb (fun x => help_flag c (fst x)) occs) eqn:E.
  - exfalso. apply existsb_exists in E. destruct E as (x & Hx & Eh). unfold help_flag in Eh. apply andb_true_iff in Eh. destruct Eh as [Eh _]. apply orb_true_iff in Eh.
    apply (Hn x Hx). destruct Eh as [Eh | Eh]; apply String.eqb_eq in Eh; rewrite Eh; [left|right; left]; reflexivity.
  - rewrite Ha, (mapM_values _ _ _ _ Hv). reflexivity.
Qed.
(** With '-h' used by an option. *)
Lemma parse_ok_h d c tbl argv occs pos args vals : flatten c = tbl -> good_table c = true -> (exists o, find_opt c "-h" = Some o) ->
  writes (takes tbl) argv occs pos -> not_given occs ["--help"] -> arg_values d (c_args c) pos = Some args ->
  Forall2 (fun o v => opt_value d o occs = Some v) (c_opts c) vals -> parse d c argv = Parsed args (combine (map o_key (c_opts c)) vals).
Proof.
  intros Et Hg (oh & Hh1) Hw Hn Ha Hv. unfold parse. rewrite (writes_scan c argv occs pos Hg); [|apply (writes_ext (takes tbl)); [|exact Hw]; intros f; subst tbl; symmetry; apply arity_flatten].
  destruct (existsb (fun x => help_flag c (fst x)) occs) eqn:E.
  - exfalso. apply existsb_exists in E. destruct E as (x & Hx & Eh). unfold help_flag in Eh. apply andb_true_iff in Eh. destruct Eh as [Eh Ef]. apply orb_true_iff in Eh.
    destruct Eh as [Eh | Eh]; apply String.eqb_eq in Eh; [rewrite Eh, Hh1 in Ef; discriminate|]. apply (Hn x Hx). rewrite Eh. left. reflexivity.
  - rewrite Ha, (mapM_values _ _ _ _ Hv). reflexivity.
Qed.

(** ** The readings used by the commands *)
Section Readings.
Variable d : Utils.disk.
Lemma cv_text s a : as_is s a -> convert d KText s = Some (VText a). Proof. intros ->. reflexivity. Qed.
Lemma cv_choice l s a : one_of l s a -> convert d (KChoice l) s = Some (VText a). Proof. intros [H ->]. apply convert_choice. exact H. Qed.
Lemma cv_int s a : int_text s a -> convert d KInt s = Some (VInt a). Proof. apply convert_int. Qed.
Lemma cv_range lo s a : int_from lo s a -> convert d (KRange lo) s = Some (VInt a). Proof. apply convert_range. Qed.
Lemma cv_num s a : number_text s a -> convert d KFloat s = Some (vnum a). Proof. apply convert_float. Qed.
Lemma cv_some_num s a : some_of number_text s a -> convert d KFloat s = Some (vopt vnum a). Proof. intros (x & H & ->). apply convert_float. exact H. Qed.
Lemma cv_some_range lo s a : some_of (int_from lo) s a -> convert d (KRange lo) s = Some (vopt VInt a). Proof. intros (x & H & ->). apply convert_range. exact H. Qed.
Lemma cv_some_text s a : some_of as_is s a -> convert d KText s = Some (vopt VText a). Proof. intros (x & -> & ->). reflexivity. Qed.
Lemma cv_opt_num s a : number_or_none s a -> convert d KOptFloat s = Some (vopt vnum a). Proof. apply convert_opt_float. Qed.
Lemma cv_opt_int s a : int_or_none s a -> convert d KOptInt s = Some (vopt VInt a). Proof. apply convert_opt_int. Qed.

Context (occs : list occ).
Definition v_text fs key := fun default x => value_one d occs fs key KText as_is VText default x cv_text.
Definition v_choice l fs key := fun default x => value_one d occs fs key (KChoice l) (one_of l) VText default x (cv_choice l).
Definition v_int fs key := fun default x => value_one d occs fs key KInt int_text VInt default x cv_int.
Definition v_range lo fs key := fun default x => value_one d occs fs key (KRange lo) (int_from lo) VInt default x (cv_range lo).
Definition v_num fs key := fun default x => value_one d occs fs key KFloat number_text vnum default x cv_num.
Definition v_some_num fs key := fun default x => value_one d occs fs key KFloat (some_of number_text) (vopt vnum) default x cv_some_num.
Definition v_some_range lo fs key := fun default x => value_one d occs fs key (KRange lo) (some_of (int_from lo)) (vopt VInt) default x (cv_some_range lo).
Definition v_some_text fs key := fun default x => value_one d occs fs key KText (some_of as_is) (vopt VText) default x cv_some_text.
Definition v_opt_num fs key := fun default x => value_one d occs fs key KOptFloat number_or_none (vopt vnum) default x cv_opt_num.
Definition v_opt_int fs key := fun default x => value_one d occs fs key KOptInt int_or_none (vopt VInt) default x cv_opt_int.
Definition v_opt_nums fs key := fun default x => value_two d occs fs key KOptFloat number_or_none (vopt vnum) default x cv_opt_num.
Definition v_opt_ints fs key := fun default x => value_two d occs fs key KOptInt int_or_none (vopt VInt) default x cv_opt_int.
End Readings.
Lemma as_lim_nums (l : option Qc * option Qc) : as_lim (VTuple [vopt vnum (fst l); vopt vnum (snd l)]) = Ok l.
Proof. destruct l as [[a|] [b|]]; reflexivity. Qed.
Lemma as_opt_num (o : option Qc) : as_opt as_num (vopt vnum o) = Ok o.
Proof. destruct o; reflexivity. Qed.
Lemma as_opt_nat (o : option nat) : as_opt as_nat (vopt VInt (option_map Z.of_nat o)) = Ok o.
Proof. destruct o as [n|]; [|reflexivity]. cbn. destruct (Z.leb_spec 0 (Z.of_nat n)); [|lia]. cbn. rewrite Nat2Z.id. reflexivity. Qed.
Lemma as_combine_nats (c : option (nat * nat)) (comb : option Z * option Z) :
  comb = match c with Some (a, b) => (Some (Z.of_nat a), Some (Z.of_nat b)) | None => (None, None) end ->
  as_combine (VTuple [vopt VInt (fst comb); vopt VInt (snd comb)]) = Ok c.
Proof.
  intros ->. destruct c as [[a b]|]; [|reflexivity]. cbn. destruct (Z.leb_spec 0 (Z.of_nat a)); [|lia]. destruct (Z.leb_spec 0 (Z.of_nat b)); [|lia].
  cbn. rewrite !Nat2Z.id. reflexivity.
Qed.
(** The bound for the numbers of files. *)
Definition bound_of (e : option Z) : Utils.bound := match e with Some z => Utils.Upto z | None => Utils.Inf end.
Definition vend (e : option Z) : val := match e with Some z => VInt z | None => VNum PInf end.
Lemma as_bound_end e : as_bound (vend e) = Ok (bound_of e).
Proof. destruct e; reflexivity. Qed.
(** The files of the viewing commands. *)
Lemma existing_files d files : (forall f, In f files -> Utils.exists_path d (Formats.os_path f) = true) -> arg_values d [files_arg] files = Some [VTuple (map VText files)].
Proof.
  intros H. assert (option_mapM (convert d KExisting) files = Some (map VText files)) as E.
  { induction files as [|f fs IH]; [reflexivity|]. unfold option_mapM in *. cbn [fold_right map]. rewrite IH by (intros g Hg; apply H; right; exact Hg).
    unfold convert. rewrite (H f (or_introl eq_refl)). reflexivity. }
  unfold files_arg. cbn [arg_values a_many a_required a_kind]. rewrite E. destruct files; reflexivity.
Qed.
Lemma texts_of l : rmapM as_text (map VText l) = Ok l.
Proof. induction l as [|s l IH]; [reflexivity|]. cbn. cbn in IH. rewrite IH. reflexivity. Qed.
