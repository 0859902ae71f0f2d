(** C77, C78: the commands of the model are the ones which are declared in strata.py. *)
From Coq Require Import String Ascii.
From Verif.Base Require Import QcX Res Np Bytes.
From Verif.Model Require Import Click Cli.
From Verif.Spec Require Import CliTable.
From Verif.Props Require Import CliTextProps.
Local Open Scope string_scope.
Local Open Scope list_scope.
Local Notation length := List.length.

(** How click reads a declaration.  Names: a word without dashes, or the first one with two dashes.  'on/off' declares a switch, and so does is_flag.  Without
    a type that of the default counts. *)
Fixpoint cut_slash (s : string) : string * option string :=
  match s with EmptyString => (EmptyString, None) | String c t => if Ascii.eqb c "/" then (EmptyString, Some t) else let '(a, b) := cut_slash t in (String c a, b) end.
Definition dashed1 (s : string) : bool := match s with String "-" _ => true | _ => false end.
Definition undash (s : string) : option string := match s with String "-" (String "-" t) => Some t | _ => None end.
Fixpoint first_some {A B} (f : A -> option B) (l : list A) : option B := match l with [] => None | a :: l => match f a with Some b => Some b | None => first_some f l end end.
Fixpoint value_of (v : sval) : val :=
  match v with
  | SAbsent => VNone | SNone => VNone | SBool b => VBool b | SInt z => VInt z | SFloat n d => VNum (Fin (Q2Qc (n # d))) | SText s => VText s | STuple l => VTuple (map value_of l)
  end.
Definition kind_of (t : stype) (v : sval) : kind :=
  match t with
  | TStr => KText | TInt => KInt | TFloat => KFloat | TOptInt => KOptInt | TOptFloat => KOptFloat | TFloats => KFloats | TTexts => KTexts | TPath => KText
  | TExisting => KExisting | TRange lo => KRange lo | TChoice l => KChoice l
  | TAbsent => match v with SBool _ => KBool | SInt _ => KInt | SFloat _ _ => KFloat | _ => KText end
  end.
Definition option_of (o : dopt) : opt :=
  let cuts := map cut_slash (filter dashed1 (do_words o)) in
  let on := map fst cuts in
  let off := flat_map (fun p => match snd p with Some s => [s] | None => [] end) cuts in
  let key := match first_some (fun s => if dashed1 s then None else Some s) (do_words o) with Some k => k | None => match first_some undash on with Some k => k | None => "" end end in
  let switch := (do_flag o || negb (length off =? 0)%nat)%bool in
  mkOpt on off key (if switch then KBool else kind_of (do_type o) (do_default o)) (if switch then 0%nat else Z.to_nat (do_nargs o))
        (match do_default o with SAbsent => if switch then VBool false else VNone | v => value_of v end).
Definition argument_of (a : darg) : arg := mkArg (da_name a) (kind_of (da_type a) SAbsent) (da_nargs a =? -1)%Z (da_required a || (0 <? da_nargs a)%Z).
(** click 7 and later use dashes in the names of groups. *)
Definition words_of (dashed : bool) (l : list string) : list string := match l with [a; b] => [if dashed then if String.eqb a "contact_line" then "contact-line" else a else a; b] | l => l end.

(** Equality of options, decided. *)
Definition ext_eqb (a b : ext) : bool := match a, b with Fin x, Fin y => qeq x y | PInf, PInf | NInf, NInf | NaN, NaN => true | _, _ => false end.
Fixpoint val_eqb (a b : val) {struct a} : bool :=
  match a, b with
  | VNone, VNone => true
  | VBool x, VBool y => Bool.eqb x y
  | VInt x, VInt y => (x =? y)%Z
  | VNum x, VNum y => ext_eqb x y
  | VText x, VText y => String.eqb x y
  | VTuple x, VTuple y => (fix go (x y : list val) := match x, y with [], [] => true | a :: x, b :: y => (val_eqb a b && go x y)%bool | _, _ => false end) x y
  | _, _ => false
  end.
Fixpoint val_eqb_ok (a b : val) {struct a} : val_eqb a b = true -> a = b.
Proof.
  destruct a as [|x|x|x|x|x], b as [|y|y|y|y|y]; cbn [val_eqb]; try discriminate; try reflexivity; intros H.
  - apply eqb_prop in H. congruence.
  - apply Z.eqb_eq in H. congruence.
  - destruct x, y; try discriminate; try reflexivity. cbn in H. apply qeq_true in H. congruence.
  - apply String.eqb_eq in H. congruence.
  - f_equal. revert y H. induction x as [|a x IH]; intros [|b y] H; try discriminate; [reflexivity|]. apply andb_prop in H. destruct H as [H1 H2]. f_equal; [apply val_eqb_ok; exact H1|apply IH; exact H2].
Qed.
Definition strings_eqb (a b : list string) : bool := if list_eq_dec string_dec a b then true else false.
Definition kind_eqb (a b : kind) : bool :=
  match a, b with
  | KText, KText | KExisting, KExisting | KInt, KInt | KFloat, KFloat | KBool, KBool | KOptInt, KOptInt | KOptFloat, KOptFloat | KFloats, KFloats | KTexts, KTexts => true
  | KRange x, KRange y => (x =? y)%Z
  | KChoice x, KChoice y => strings_eqb x y
  | _, _ => false
  end.
Definition opt_eqb (a b : opt) : bool :=
  (strings_eqb (o_flags a) (o_flags b) && strings_eqb (o_offs a) (o_offs b) && String.eqb (o_key a) (o_key b) && kind_eqb (o_kind a) (o_kind b) && (o_nargs a =? o_nargs b)%nat
   && val_eqb (o_default a) (o_default b))%bool.
Lemma opt_eqb_ok a b : opt_eqb a b = true -> a = b.
Proof.
  unfold opt_eqb. rewrite !andb_true_iff. intros (((((H1 & H2) & H3) & H4) & H5) & H6). destruct a, b. cbn in *.
  unfold strings_eqb in H1, H2. destruct (list_eq_dec _ o_flags _) as [->|]; [|discriminate]. destruct (list_eq_dec _ o_offs _) as [->|]; [|discriminate].
  apply String.eqb_eq in H3. apply Nat.eqb_eq in H5. apply val_eqb_ok in H6. subst. f_equal.
  destruct o_kind as [| | |x| |x| | | | |], o_kind0 as [| | |y| |y| | | | |]; try discriminate; try reflexivity; cbn in H4.
  - apply Z.eqb_eq in H4. congruence.
  - unfold strings_eqb in H4. destruct (list_eq_dec _ x y); [congruence|discriminate].
Qed.
Lemma included (l1 l2 : list opt) : forallb (fun o => existsb (opt_eqb o) l2) l1 = true -> forall o, In o l1 -> In o l2.
Proof.
  intros H o Ho. rewrite forallb_forall in H. specialize (H o Ho). apply existsb_exists in H. destruct H as (o' & Ho' & E). apply opt_eqb_ok in E. congruence.
Qed.

(** Every command with its words, arguments, options (in some order) and its function. *)
Theorem C78_declared dashed : forall ws args opts fns, In (ws, args, opts, fns) declared ->
  exists c touched fn, In (words_of dashed ws, c, touched, fn) (commands dashed) /\ c_args c = map argument_of args /\ fns = [fn] /\
    length (c_opts c) = length opts /\ (forall o, In o (c_opts c) <-> In o (map option_of opts)).
Proof.
  intros ws args opts fns H. destruct dashed; unfold declared in H; cbn [In] in H.
  all: repeat match type of H with False => destruct H | _ \/ _ => destruct H as [H | H]; [injection H as <- <- <- <-|] end.
  all: eexists _, _, _; (split; [unfold commands, words_of; cbn [String.eqb Ascii.eqb Bool.eqb]; repeat first [left; reflexivity | right]|]).
  all: split; [reflexivity|]; split; [reflexivity|]; split; [reflexivity|].
  all: intros o; split; apply included; vm_compute; reflexivity.
Qed.
Print Assumptions C78_declared.
(** There are no other commands. *)
Theorem C78_all_declared dashed : length declared = length (commands dashed) /\
  forall ws c touched fn, In (ws, c, touched, fn) (commands dashed) -> In ws (map (fun x => words_of dashed (fst (fst (fst x)))) declared).
Proof.
  split; [destruct dashed; reflexivity|]. intros ws c touched fn H. destruct dashed; cbn [commands In] in H.
  all: repeat match type of H with False => destruct H | _ \/ _ => destruct H as [H | H]; [injection H as <- <- <- <-; cbn; tauto|] end.
Qed.
Print Assumptions C78_all_declared.
