(** Model of /repo/strata/utils.py (file name generation, file search and
    output preparation). *)
From Coq Require Import List ZArith String Ascii Bool Decimal DecimalString.
From Verif.Base Require Import Res.
Import ListNotations.
Local Open Scope string_scope.
Local Open Scope Z_scope.

(** ** Number formatting *)

(** Python's ['%d'] for a non-negative integer. *)
Definition dec (n : N) : string := NilEmpty.string_of_uint (N.to_uint n).

Fixpoint zeros (n : nat) : string :=
  match n with O => "" | S n => String "0" (zeros n) end.

(** Python's ['%05d'] (width 5 includes the sign of a negative number).
    The code also formats floats here ([np.ceil], utils.py:35): an integral
    float formats as the integer it is. *)
Definition fmt05d (z : Z) : string :=
  if z <? 0
  then let s := dec (Z.to_N (- z)) in "-" ++ zeros (4 - String.length s) ++ s
  else let s := dec (Z.to_N z) in zeros (5 - String.length s) ++ s.

(** utils.py:35, ['%s%05d%s' % (base, num, ext)]. *)
Definition fname (base : string) (num : Z) (ext : string) : string :=
  base ++ fmt05d num ++ ext.

(** The final number [end]: an integer or [np.inf]. *)
Inductive bound := Upto (z : Z) | Inf.
Definition le_bound (n : Z) (e : bound) : bool :=
  match e with Upto z => n <=? z | Inf => true end.

(** utils.py:33-36.  The generator [gen_filenames] as a step function: one
    [next] either yields a name and the following state or is exhausted.
    The TypeError branch (arguments which are not numbers) is not modelled. *)
Definition gen_next (base : string) (e : bound) (ext : string) (num : Z) : option (string * Z) :=
  if le_bound num e then Some (fname base num ext, num + 1) else None.

(** utils.py:8-40: the first [fuel] values yielded by [gen_filenames]. *)
Fixpoint gen_filenames (fuel : nat) (base : string) (num : Z) (e : bound) (ext : string) : list string :=
  match fuel with
  | O => []
  | S fuel =>
    match gen_next base e ext num with
    | Some (name, num') => name :: gen_filenames fuel base num' e ext
    | None => []
    end
  end.

(** The file system seen by [os.access(filename, os.F_OK)]: which names exist.
    Simplification: it does not change while the generator is consumed. *)
Definition fsys := string -> bool.

(** utils.py:73-86 [yield_singles]: yielded names and whether the "No files"
    warning is issued; [Err OutOfFuel] if not finished after [fuel] numbers. *)
Fixpoint yield_singles (fuel : nat) (fs : fsys) (base : string) (num : Z) (e : bound)
    (ext : string) (files_found : bool) : res (list string * bool) :=
  match fuel with
  | O => Err OutOfFuel
  | S fuel =>
    match gen_next base e ext num with
    | None => Ok ([], false)
    | Some (filename, num') =>
      if fs filename then
        do (rest, warned) <- yield_singles fuel fs base num' e ext true;
        Ok (filename :: rest, warned)
      else Ok ([], negb files_found)
    end
  end.

(** utils.py:88-103 [yield_groups].  [group] is an integer, possibly zero or
    negative.  [fuel] bounds the number of groups.  The inner search runs over
    [begin .. begin+group-1] and needs at most [group] + 1 steps. *)
Fixpoint yield_groups (fuel : nat) (fs : fsys) (base : string) (begin : Z) (group_end : Z) (e : bound)
    (ext : string) (group : Z) (rolling : bool) : res (list (list string)) :=
  match fuel with
  | O => Err OutOfFuel
  | S fuel =>
    if le_bound group_end e then
      do (files, _) <- yield_singles (S (Z.to_nat group)) fs base begin (Upto group_end) ext false;
      if Z.of_nat (List.length files) =? group then
        let step := if rolling then 1 else group in
        do rest <- yield_groups fuel fs base (begin + step) (group_end + step) e ext group rolling;
        Ok (files :: rest)
      else Ok []
    else Ok []
  end.

(** utils.py:43-120 [find_datamap_files] without 'group'. *)
Definition find_datamap_singles (fuel : nat) (fs : fsys) (base : string) (begin : Z) (e : bound) (ext : string)
  : res (list string * bool) :=
  yield_singles fuel fs base begin e ext false.

(** utils.py:43-120 [find_datamap_files] with 'group' (and 'rolling'). *)
Definition find_datamap_groups (fuel : nat) (fs : fsys) (base : string) (begin : Z) (e : bound) (ext : string)
    (group : Z) (rolling : bool) : res (list (list string)) :=
  yield_groups fuel fs base begin (begin + group - 1) e ext group rolling.

(** Keyword arguments relating to files; [None] where the caller does not give one. *)
Record fopts := { o_begin : option Z; o_end : option bound; o_ext : option string; o_outext : option string }.
Definition dflt {A} (d : A) (o : option A) : A := match o with Some a => a | None => d end.

(** Pair every yielded value with [next(out)]; a StopIteration inside a
    generator becomes a RuntimeError (PEP 479). *)
Fixpoint zip_next {A} (l : list A) (base : string) (e : bound) (ext : string) (num : Z)
  : res (list (A * string)) :=
  match l with
  | [] => Ok []
  | a :: l =>
    match gen_next base e ext num with
    | None => Err RuntimeErr
    | Some (name, num') => do rest <- zip_next l base e ext num'; Ok ((a, name) :: rest)
    end
  end.

(** utils.py:123-155 [find_singles_to_singles]. *)
Definition find_singles_to_singles (fuel : nat) (fs : fsys) (base output : string) (o : fopts)
  : res (list (string * string)) :=
  let out_ext := match o_outext o with Some x => x | None => dflt ".dat" (o_ext o) end in
  let begin := dflt 1 (o_begin o) in
  let e := dflt Inf (o_end o) in
  do (paths, _) <- find_datamap_singles fuel fs base begin e (dflt ".dat" (o_ext o));
  zip_next paths output e out_ext begin.

(** utils.py:208-236 [pop_fileopts]: options with defaults filled in. *)
Record fileopts := { f_begin : Z; f_end : bound; f_ext : string; f_outext : string }.
Definition pop_fileopts (o : fopts) : fileopts :=
  let ext := dflt ".dat" (o_ext o) in
  {| f_begin := dflt 1 (o_begin o); f_end := dflt Inf (o_end o); f_ext := ext;
     f_outext := dflt ext (o_outext o) |}.

(** [np.ceil(a/b)] for integers, exact (no float rounding of the quotient). *)
Definition ceil_div (a b : Z) : Z := - ((- a) / b).

(** utils.py:158-205 [find_groups_to_singles]. *)
Definition find_groups_to_singles (fuel : nat) (fs : fsys) (base output : string) (group : Z) (rolling : bool)
    (o : fopts) : res (list (list string * string)) :=
  let opts := pop_fileopts o in
  do begin_out <- (if rolling then Ok (f_begin opts)
                   else if group =? 0 then Err ZeroDivErr else Ok (ceil_div (f_begin opts) group));
  do groups <- find_datamap_groups fuel fs base (f_begin opts) (f_end opts) (f_ext opts) group rolling;
  zip_next groups output Inf (f_outext opts) begin_out.

(** ** Output preparation *)

(** A path is modelled as its directory and file name as [os.path.split]
    returns them (utils.py:260), with the empty directory identified with "."
    (utils.py:261-262), so ["./name"] and ["name"] are the same path.  Only
    regular files are modelled: no links, no directories at a file's path. *)
Definition path := (string * string)%type.
Definition path_eqb (p q : path) : bool :=
  String.eqb (fst p) (fst q) && String.eqb (snd p) (snd q).

(** A file system: existing files with contents, and existing directories. *)
Record disk := { files : list (path * string); dirs : list string }.

Fixpoint lookup (l : list (path * string)) (p : path) : option string :=
  match l with
  | [] => None
  | (q, c) :: l => if path_eqb p q then Some c else lookup l p
  end.
Fixpoint remove (l : list (path * string)) (p : path) : list (path * string) :=
  match l with
  | [] => []
  | (q, c) :: l => if path_eqb p q then remove l p else (q, c) :: remove l p
  end.
Definition exists_path (d : disk) (p : path) : bool :=
  match lookup (files d) p with Some _ => true | None => false end.

(** Atomic file system operations (POSIX semantics: rename replaces). *)
Inductive op :=
| Makedirs (dir : string)
| Rename (src dst : path)
| OpenTrunc (p : path)            (* open(path, 'w'): create or truncate *)
| Append (p : path) (s : string). (* write to / append to an open file *)

Definition set_file (d : disk) (p : path) (c : string) : disk :=
  {| files := (p, c) :: remove (files d) p; dirs := dirs d |}.

(** Renaming a file which does not exist and appending to one which does not
    exist leave the disk as it is (the caller gets an OSError). *)
Definition exec_op (d : disk) (o : op) : disk :=
  match o with
  | Makedirs dir => {| files := files d; dirs := dir :: dirs d |}
  | Rename src dst =>
    match lookup (files d) src with
    | Some c => {| files := (dst, c) :: remove (remove (files d) src) dst; dirs := dirs d |}
    | None => d
    end
  | OpenTrunc p => set_file d p ""
  | Append p s =>
    match lookup (files d) p with
    | Some c => set_file d p (c ++ s)
    | None => d
    end
  end.
Definition exec_ops (d : disk) (ops : list op) : disk := fold_left exec_op ops d.

(** utils.py:272-273: backup name ['#%s.%d#' % (filename, i)] in the same directory. *)
Definition backup_path (p : path) (i : N) : path :=
  (fst p, "#" ++ snd p ++ "." ++ dec i ++ "#").

(** utils.py:269-274: the search loop; [cur] is the variable [backup]. *)
Fixpoint backup_loop (fuel : nat) (d : disk) (p : path) (i : N) (cur : path) : res path :=
  match fuel with
  | O => Err OutOfFuel
  | S fuel => if exists_path d cur then backup_loop fuel d p (i + 1) (backup_path p i) else Ok cur
  end.

(** The loop needs at most one step for each existing file, plus two. *)
Definition backup_name (d : disk) (p : path) : res path :=
  backup_loop (S (S (List.length (files d)))) d p 1 p.

(** utils.py:239-288: the file system operations of a call of a function
    decorated with [prepare_path] whose body opens the path for writing and
    writes [chunks].  *)
Definition prepare_ops (d : disk) (p : path) : res (list op) :=
  do backup <- backup_name d p;
  Ok (((if existsb (String.eqb (fst p)) (dirs d) then [] else [Makedirs (fst p)])
      ++ (if path_eqb backup p then [] else [Rename p backup]))%list).

Definition write_ops (d : disk) (p : path) (chunks : list string) : res (list op) :=
  do pre <- prepare_ops d p;
  Ok (pre ++ OpenTrunc p :: map (Append p) chunks)%list.

Definition call := (path * list string)%type.

(** One complete decorated call. *)
Definition do_call (d : disk) (c : call) : res disk :=
  do ops <- write_ops d (fst c) (snd c); Ok (exec_ops d ops).

(** A sequence of calls by one process. *)
Fixpoint do_calls (d : disk) (cs : list call) : res disk :=
  match cs with
  | [] => Ok d
  | c :: cs => do d' <- do_call d c; do_calls d' cs
  end.

(** ** Two processes writing at the same time.
    A process first reads the directory (choosing the backup name), then
    performs its operations one by one; the scheduler interleaves them. *)
Inductive proc :=
| Start (c : call)
| Running (ops : list op)
| Failed.
Definition proc_step (d : disk) (q : proc) : disk * proc :=
  match q with
  | Start c => match write_ops d (fst c) (snd c) with Ok ops => (d, Running ops) | Err _ => (d, Failed) end
  | Running (o :: ops) => (exec_op d o, Running ops)
  | Running [] => (d, Running [])
  | Failed => (d, Failed)
  end.
Fixpoint run_two (sched : list bool) (d : disk) (a b : proc) : disk * proc * proc :=
  match sched with
  | [] => (d, a, b)
  | true :: s => let '(d', a') := proc_step d a in run_two s d' a' b
  | false :: s => let '(d', b') := proc_step d b in run_two s d' a b'
  end.
