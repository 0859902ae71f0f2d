(** The parts of the library click which /repo/strata/strata.py uses (click is not part of the repository: this is its documented behaviour),
    and the parameter types of strata.py:30-81. *)
From Coq Require Import String Ascii.
From Verif.Base Require Import QcX Res Np Bytes.
From Verif.Model Require Import Text PyText.
From Verif.Model Require Utils Formats.
Local Open Scope list_scope.

(** Values of parameters. *)
Inductive val := VNone | VBool (b : bool) | VInt (z : Z) | VNum (x : ext) | VText (s : string) | VTuple (l : list val).
(** Types of parameters: str and click.Path(), click.Path(exists=True), int, click.IntRange(lo, None), float, click.Choice, bool and the four types of strata.py. *)
Inductive kind := KText | KExisting | KInt | KRange (lo : Z) | KFloat | KChoice (l : list string) | KBool | KOptInt | KOptFloat | KFloats | KTexts.

Definition option_mapM {A B} (f : A -> option B) (l : list A) : option (list B) :=
  fold_right (fun a r => match f a, r with Some b, Some bs => Some (b :: bs) | _, _ => None end) (Some []) l.
Definition is_none (t : bytes) : bool := bytes_eqb (lower t) (txt "none").
(** [str.strip()], which also removes the characters 28 to 31. *)
Fixpoint drop_space (s : bytes) : bytes := match s with [] => [] | b :: s' => if is_space b then drop_space s' else s end.
Definition strip_space (s : bytes) : bytes := rev (drop_space (rev (drop_space s))).
(** click's BOOL (for an option with a boolean default which is not declared as a flag). *)
Definition bool_text (t : bytes) : option bool :=
  let l := lower (strip_space t) in
  if existsb (fun w => bytes_eqb l (txt w)) ["true"; "1"; "yes"; "y"; "t"; "on"]%string then Some true
  else if existsb (fun w => bytes_eqb l (txt w)) ["false"; "0"; "no"; "n"; "f"; "off"]%string then Some false else None.
(** strata.py:30-76 and click's types: the value of a text; [None] is a usage error. *)
Definition convert (d : Utils.disk) (k : kind) (s : string) : option val :=
  let t := txt s in
  match k with
  | KText => Some (VText s)
  | KExisting => if Utils.exists_path d (Formats.os_path s) then Some (VText s) else None
  | KInt => option_map VInt (py_int t)
  | KRange lo => match py_int t with Some z => if (lo <=? z)%Z then Some (VInt z) else None | None => None end
  | KFloat => option_map VNum (py_float t)
  | KChoice l => if existsb (String.eqb s) l then Some (VText s) else None
  | KBool => option_map VBool (bool_text t)
  | KOptInt => match py_int t with Some z => Some (VInt z) | None => if is_none t then Some VNone else None end
  | KOptFloat => match py_float t with Some x => Some (VNum x) | None => if is_none t then Some VNone else None end
  | KFloats => option_map VTuple (option_mapM (fun w => option_map VNum (py_float w)) (words t))
  | KTexts => Some (VTuple (map (fun w => VText (string_of_list_ascii w)) (words t)))
  end.

(** An option: its spellings, the spellings which switch it off, its name, type, number of values (0 for flags) and default. *)
Record opt := mkOpt { o_flags : list string; o_offs : list string; o_key : string; o_kind : kind; o_nargs : nat; o_default : val }.
(** A positional argument; [many] for nargs=-1. *)
Record arg := mkArg { a_key : string; a_kind : kind; a_many : bool; a_required : bool }.
Record command := mkCommand { c_args : list arg; c_opts : list opt }.

Definition spelt (o : opt) (f : string) : bool := (existsb (String.eqb f) (o_flags o) || existsb (String.eqb f) (o_offs o))%bool.
Definition find_opt (c : command) (f : string) : option opt := find (fun o => spelt o f) (c_opts c).
(** The names of the help option which are not used by an option. *)
Definition help_flag (c : command) (f : string) : bool :=
  ((String.eqb f "-h" || String.eqb f "--help") && match find_opt c f with None => true | Some _ => false end)%bool.
(** The number of values after a spelling. *)
Definition arity (c : command) (f : string) : option nat :=
  match find_opt c f with Some o => Some (o_nargs o) | None => if help_flag c f then Some 0%nat else None end.
Definition dash : byte := chr 45.
Definition starts_dash (s : bytes) : bool := match s with b :: _ => (code b =? 45)%Z | [] => false end.
(** Something beginning with '-' which is not just '-' is an option. *)
Definition looks_opt (s : bytes) : bool := match s with b :: _ :: _ => (code b =? 45)%Z | _ => false end.
(** One dash and one character: a short option; anything else is a long one, also '-co'. *)
Definition is_short (s : bytes) : bool := match s with [b; c] => ((code b =? 45) && negb (code c =? 45))%Z%bool | _ => false end.
(** Text before and after the first '='. *)
Fixpoint split_eq (s : bytes) : bytes * option bytes :=
  match s with
  | [] => ([], None)
  | b :: s => if (code b =? 61)%Z then ([], Some s) else let '(x, y) := split_eq s in (b :: x, y)
  end.

(** An option as given: its spelling and the values. *)
Definition occ := (string * list string)%type.
Definition str (b : bytes) : string := string_of_list_ascii b.
(** Short options in one word: [s] are the characters after the dash.  The complete ones, and the one which waits for values. *)
Fixpoint shorts (c : command) (s : bytes) : option (list occ * option (string * nat * list string)) :=
  match s with
  | [] => Some ([], None)
  | b :: s' =>
    let f := str [dash; b] in
    match arity c f with
    | None => None
    | Some 0%nat => match shorts c s' with Some (l, p) => Some ((f, []) :: l, p) | None => None end
    | Some n => Some ([], Some (f, n, match s' with [] => [] | _ => [str s'] end))
    end
  end.
(** click/parser.py [_process_opts]: the long options first, then, after a single dash, short ones. *)
Definition token (c : command) (a : string) : option (list occ * option (string * nat * list string)) :=
  let '(l, v) := split_eq (txt a) in
  let long := if is_short l then None else arity c (str l) in
  match long, v with
  | Some 0%nat, None => Some ([(str l, [])], None)
  | Some 0%nat, Some _ => None
  | Some n, None => Some ([], Some (str l, n, []))
  | Some n, Some v => Some ([], Some (str l, n, [str v]))
  | None, _ => match txt a with
               | _ :: b :: _ => if (code b =? 45)%Z then None else shorts c (tl (txt a))
               | _ => None
               end
  end.
(** click/parser.py [_process_args_for_options]: the options in the order in which they are given, and the other words.  [pend] is an option
    which waits for values (spelling, number of values, values so far). *)
Fixpoint scan (c : command) (pend : option (string * nat * list string)) (argv : list string) : option (list occ * list string) :=
  match pend with
  | Some (f, n, got) =>
    match argv with
    | [] => None
    | a :: rest => let got := got ++ [a] in
                   if (n <=? length got)%nat then match scan c None rest with Some (l, p) => Some ((f, got) :: l, p) | None => None end
                   else scan c (Some (f, n, got)) rest
    end
  | None =>
    match argv with
    | [] => Some ([], [])
    | a :: rest =>
      if String.eqb a "--" then Some ([], rest)
      else if looks_opt (txt a) then
        match token c a with
        | None => None
        | Some (l, None) => match scan c None rest with Some (l', p) => Some (l ++ l', p) | None => None end
        | Some (l, Some (f, n, got)) =>
          if (n <=? length got)%nat then match scan c None rest with Some (l', p) => Some (l ++ (f, got) :: l', p) | None => None end
          else match scan c (Some (f, n, got)) rest with Some (l', p) => Some (l ++ l', p) | None => None end
        end
      else match scan c None rest with Some (l, p) => Some (l, a :: p) | None => None end
    end
  end.

(** The last time an option is given counts. *)
Fixpoint last_occ (o : opt) (l : list occ) : option occ :=
  match l with
  | [] => None
  | x :: l => match last_occ o l with Some y => Some y | None => if spelt o (fst x) then Some x else None end
  end.
Definition opt_value (d : Utils.disk) (o : opt) (l : list occ) : option val :=
  match last_occ o l with
  | None => Some (o_default o)
  | Some (f, vs) =>
    match o_nargs o with
    | 0%nat => Some (VBool (existsb (String.eqb f) (o_flags o)))
    | 1%nat => match vs with [v] => convert d (o_kind o) v | _ => None end
    | _ => option_map VTuple (option_mapM (convert d (o_kind o)) vs)
    end
  end.
(** The positional arguments: one word each; the last one may take all remaining words. *)
Fixpoint arg_values (d : Utils.disk) (args : list arg) (pos : list string) : option (list val) :=
  match args with
  | [] => match pos with [] => Some [] | _ => None end
  | a :: args =>
    if a_many a then
      match pos, a_required a with
      | [], true => None
      | _, _ => match args with [] => option_map (fun l => [VTuple l]) (option_mapM (convert d (a_kind a)) pos) | _ => None end
      end
    else match pos with
         | [] => None
         | p :: pos => match convert d (a_kind a) p, arg_values d args pos with Some v, Some vs => Some (v :: vs) | _, _ => None end
         end
  end.

(** Keyword arguments: a dict. *)
Definition kwargs := list (string * val).
Fixpoint get (k : string) (kw : kwargs) : val := match kw with [] => VNone | (k', v) :: kw => if String.eqb k k' then v else get k kw end.
Fixpoint del (k : string) (kw : kwargs) : kwargs := match kw with [] => [] | (k', v) :: kw => if String.eqb k k' then del k kw else (k', v) :: del k kw end.
Definition set (k : string) (v : val) (kw : kwargs) : kwargs := (k, v) :: del k kw.
Definition has (k : string) (kw : kwargs) : bool := existsb (fun p => String.eqb k (fst p)) kw.

(** What becomes of the words after the name of a command. *)
Inductive parsed := Refused | Help | Parsed (args : list val) (kw : kwargs).
Definition parse (d : Utils.disk) (c : command) (argv : list string) : parsed :=
  match scan c None argv with
  | None => Refused
  | Some (occs, pos) =>
    if existsb (fun x => help_flag c (fst x)) occs then Help
    else match arg_values d (c_args c) pos, option_mapM (fun o => option_map (pair (o_key o)) (opt_value d o occs)) (c_opts c) with
         | Some vs, Some kw => Parsed vs kw
         | _, _ => Refused
         end
  end.
