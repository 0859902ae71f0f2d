(** What command lines and the texts of their values mean. *)
From Coq Require Import String Ascii.
From Verif.Base Require Import QcX Np Bytes.
Local Open Scope string_scope.
Local Open Scope list_scope.

(** ** Numbers *)
Definition is_digit (c : ascii) (v : Z) : Prop := (0 <= v <= 9)%Z /\ code c = (48 + v)%Z.
(** Digits, possibly with single underscores between them: the value and the number of digits. *)
Inductive numeral : list ascii -> Z -> nat -> Prop :=
| num_one c v : is_digit c v -> numeral [c] v 1
| num_more c v s n k : is_digit c v -> numeral s n k -> numeral (c :: s) (v * 10 ^ Z.of_nat k + n) (S k)
| num_group c v s n k : is_digit c v -> numeral s n k -> numeral (c :: "_"%char :: s) (v * 10 ^ Z.of_nat k + n) (S k).
Definition white (c : ascii) : Prop := (9 <= code c <= 13 \/ code c = 32)%Z.
(** [s] without the white space around it. *)
Definition surrounded (s core : list ascii) : Prop := exists pre post, s = pre ++ core ++ post /\ Forall white pre /\ Forall white post.
(** An optional sign. *)
Definition with_sign {A} (R : list ascii -> A -> Prop) (opp : A -> A) (s : list ascii) (x : A) : Prop :=
  R s x \/ (exists t, s = "+"%char :: t /\ R t x) \/ (exists t y, s = "-"%char :: t /\ R t y /\ x = opp y).
(** The text of an integer. *)
Definition int_text (s : string) (z : Z) : Prop :=
  exists core, surrounded (txt s) core /\ with_sign (fun t n => exists k, numeral t n k) Z.opp core z.

(** The letters of a word, capital or not. *)
Definition any_case (w : string) (s : list ascii) : Prop := Forall2 (fun l c => c = l \/ (97 <= code l <= 122)%Z /\ code c = (code l - 32)%Z) (txt w) s.
(** '12', '12.', '.5' and '12.5'. *)
Inductive decimal : list ascii -> Qc -> Prop :=
| dec_whole i n k : numeral i n k -> decimal i (ZQ n)
| dec_point i n k : numeral i n k -> decimal (i ++ ["."%char]) (ZQ n)
| dec_part f n k : numeral f n k -> decimal ("."%char :: f) (ZQ n / ZQ (10 ^ Z.of_nat k))
| dec_both i f n m j k : numeral i n j -> numeral f m k -> decimal (i ++ "."%char :: f) (ZQ n + ZQ m / ZQ (10 ^ Z.of_nat k)).
(** m * 10^e; [ten_to e p q] is 10^e = p / q. *)
Definition ten_to (e : Z) (p q : Z) : Prop := (0 <= e /\ p = 10 ^ e /\ q = 1 \/ e < 0 /\ p = 1 /\ q = 10 ^ (- e))%Z.
Inductive number : list ascii -> ext -> Prop :=
| nr_decimal m v : decimal m v -> number m (Fin v)
| nr_exponent m v c x e p q : decimal m v -> c = "e"%char \/ c = "E"%char -> with_sign (fun t n => exists k, numeral t n k) Z.opp x e -> ten_to e p q ->
    number (m ++ c :: x) (Fin (v * ZQ p / ZQ q))
| nr_inf s : any_case "inf" s -> number s PInf
| nr_infinity s : any_case "infinity" s -> number s PInf
| nr_nan s : any_case "nan" s -> number s NaN.
Definition opposite (x : ext) : ext := match x with Fin q => Fin (- q) | PInf => NInf | NInf => PInf | NaN => NaN end.
(** The text of a number. *)
Definition float_text (s : string) (x : ext) : Prop := exists core, surrounded (txt s) core /\ with_sign number opposite core x.
(** 'none' with capital letters or not. *)
Definition none_text (s : string) : Prop := any_case "none" (txt s).

(** ** Command lines *)
(** A command line is a list of words.  [takes f]: how many values follow the spelling [f] of an option. *)
Definition like_option (w : string) : Prop := exists c s, w = String "-" (String c s).
(** '-b' is a short spelling; '-co' and '--begin' are long ones. *)
Definition short (f : string) : Prop := exists c, f = String "-" (String c "") /\ c <> "-"%char.
(** The word is a long spelling, possibly with a value attached to it with '='. *)
Definition names_long (takes : string -> option nat) (w : string) : Prop :=
  exists f, ~ short f /\ takes f <> None /\ (w = f \/ exists v, w = (f ++ "=" ++ v)%string).
(** Short options in one word (without the dash), with their values: in the word itself and in [after], the words after it. *)
Inductive bundle (takes : string -> option nat) : string -> list string -> list (string * list string) -> Prop :=
| bun_end : bundle takes "" [] []
| bun_flag c s after occs : takes (String "-" (String c "")) = Some 0%nat -> bundle takes s after occs -> bundle takes (String c s) after ((String "-" (String c ""), []) :: occs)
| bun_value c s after : takes (String "-" (String c "")) = Some (S (List.length after)) -> s <> "" ->
    bundle takes (String c s) after [(String "-" (String c ""), s :: after)]
| bun_after c after : takes (String "-" (String c "")) = Some (List.length after) -> after <> [] ->
    bundle takes (String c "") after [(String "-" (String c ""), after)].
(** [argv] gives the options [occs] (spelling and values), in this order, and the other words [pos]. *)
Inductive writes (takes : string -> option nat) : list string -> list (string * list string) -> list string -> Prop :=
| wr_end : writes takes [] [] []
| wr_word w argv occs pos : ~ like_option w -> writes takes argv occs pos -> writes takes (w :: argv) occs (w :: pos)
| wr_rest pos : writes takes ("--" :: pos) [] pos
| wr_long f vs argv occs pos : takes f = Some (List.length vs) -> ~ short f -> writes takes argv occs pos -> writes takes (f :: vs ++ argv) ((f, vs) :: occs) pos
| wr_equals f v vs argv occs pos : takes f = Some (S (List.length vs)) -> ~ short f -> writes takes argv occs pos ->
    writes takes ((f ++ "=" ++ v)%string :: vs ++ argv) ((f, v :: vs) :: occs) pos
| wr_short s after now argv occs pos : s <> "" -> (forall t, s <> String "-" t) -> ~ names_long takes (String "-" s) ->
    bundle takes s after now -> writes takes argv occs pos -> writes takes (String "-" s :: after ++ argv) (now ++ occs) pos.

(** A table of spellings with the numbers of their values. *)
Fixpoint takes (tbl : list (string * nat)) (f : string) : option nat :=
  match tbl with [] => None | (g, n) :: tbl => if String.eqb f g then Some n else takes tbl f end.

(** The last time one of the spellings is given. *)
Definition given (occs : list (string * list string)) (fs : list string) (f : string) (vs : list string) : Prop :=
  In f fs /\ exists before after, occs = before ++ (f, vs) :: after /\ forall x, In x after -> ~ In (fst x) fs.
Definition not_given (occs : list (string * list string)) (fs : list string) : Prop := forall x, In x occs -> ~ In (fst x) fs.
(** An option with one value. *)
Definition chosen {A} (occs : list (string * list string)) (fs : list string) (reads : string -> A -> Prop) (default x : A) : Prop :=
  (exists f v, given occs fs f [v] /\ reads v x) \/ (not_given occs fs /\ x = default).
(** An option with two values. *)
Definition chosen2 {A} (occs : list (string * list string)) (fs : list string) (reads : string -> A -> Prop) (default x : A * A) : Prop :=
  (exists f v w, given occs fs f [v; w] /\ reads v (fst x) /\ reads w (snd x)) \/ (not_given occs fs /\ x = default).
(** An option which is switched on and off. *)
Definition switched (occs : list (string * list string)) (on off : list string) (default b : bool) : Prop :=
  (exists f, given occs (on ++ off) f [] /\ (b = true <-> In f on)) \/ (not_given occs (on ++ off) /\ b = default).
(** How texts are read. *)
Definition as_is (s : string) (x : string) : Prop := x = s.
Definition number_text (s : string) (x : Qc) : Prop := float_text s (Fin x).
Definition some_of {A} (reads : string -> A -> Prop) (s : string) (x : option A) : Prop := exists a, reads s a /\ x = Some a.
Definition number_or_none (s : string) (x : option Qc) : Prop := (exists a, number_text s a /\ x = Some a) \/ (none_text s /\ x = None).
Definition int_from (lo : Z) (s : string) (z : Z) : Prop := int_text s z /\ (lo <= z)%Z.
Definition one_of (l : list string) (s : string) (x : string) : Prop := In s l /\ x = s.
Definition int_or_none (s : string) (x : option Z) : Prop := (exists a, int_text s a /\ x = Some a) \/ (none_text s /\ x = None).
Definition help : list string := ["-h"; "--help"].
(** The words of a text. *)
Definition gap (c : ascii) : Prop := white c \/ (28 <= code c <= 31)%Z.
Inductive parts : list ascii -> list (list ascii) -> Prop :=
| parts_none s : Forall gap s -> parts s []
| parts_word pre w s l : Forall gap pre -> w <> [] -> Forall (fun c => ~ gap c) w -> (s = [] \/ exists c t, s = c :: t /\ gap c) -> parts s l ->
    parts (pre ++ w ++ s) (w :: l).
(** 'yes' and 'no' for options which take them as a value. *)
Definition yes_words : list string := ["true"; "1"; "yes"; "y"; "t"; "on"].
Definition no_words : list string := ["false"; "0"; "no"; "n"; "f"; "off"].
Definition yes_no (s : string) (b : bool) : Prop :=
  exists w pre core post, In w (if b then yes_words else no_words) /\ txt s = pre ++ core ++ post /\ Forall gap pre /\ Forall gap post /\ any_case w core.
