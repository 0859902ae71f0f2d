(** Model of /repo/strata/dataformats/read.py, write.py and /repo/strata/convert.py. *)
From Coq Require Import String Ascii.
From Verif.Base Require Import QcX Res Np Bytes.
From Verif.Model Require Import Utils Text Gmx Simple.
Local Open Scope list_scope.

Fixpoint starts_with (p s : bytes) : bool :=
  match p, s with
  | [], _ => true
  | a :: p, b :: s => if ascii_dec a b then starts_with p s else false
  | _ :: _, [] => false
  end.
Inductive module := GmxModule | SimpleModule.
(** read.py:12-37 [guess_read_module]: [None] is a file which cannot be read. *)
Definition guess_read_module (file : option bytes) : module :=
  match file with
  | None => SimpleModule
  | Some b => let buf := firstn 100 b in
    if (starts_with (txt "FORMAT GMX_FLOW_1") buf || starts_with (txt "FORMAT GMX_FLOW_2") buf)%bool then GmxModule else SimpleModule
  end.
(** read.py:57-98 [read_data_file], without the metadata. *)
Definition read_data_file (fuel : nat) (file : option bytes) : res (dict (list ext) * minfo) :=
  match guess_read_module file, file with
  | _, None => Err OSErr
  | GmxModule, Some b =>
    do (d, i) <- gmx_read fuel b;
    Ok (d, mkMinfo (Z.to_nat (fst (g_shape i)), Z.to_nat (snd (g_shape i))) (Fin (fst (g_spacing i)), Fin (snd (g_spacing i))) (g_origin i))
  | SimpleModule, Some b => simple_read b
  end.

(** Only finite values are modelled for writing (RuntimeErr otherwise). *)
Definition finite_dict (d : dict (list ext)) : res (dict (list Qc)) :=
  rmapM (fun p => do v <- rmapM finite (snd p); Ok (fst p, v)) d.
Definition finite_info (i : minfo) : res ginfo :=
  do dx <- finite (fst (m_spacing i)); do dy <- finite (snd (m_spacing i));
  Ok (mkGinfo (Z.of_nat (fst (m_shape i)), Z.of_nat (snd (m_shape i))) (dx, dy) (m_origin i)).

(** write.py:14-55 [write]: [ftype] as given, 'binary' (an argument of the simple format),
    whether there are other keyword arguments (ignored by gmx, a TypeError for simple),
    and the positional arguments after the data: none or the grid information
    (only the gmx format takes, and needs, it). *)
Definition write (ftype : option string) (binary : bool) (others : bool) (d : dict (list Qc)) (i : option ginfo) : res bytes :=
  let ft := match ftype with Some s => s | None => "default"%string end in
  if (String.eqb ft "gmx" || String.eqb ft "default")%bool then
    match i with Some i => gmx_write d i | None => Err TypeErr end
  else if String.eqb ft "simple" then if others then Err TypeErr else simple_write binary d
  else if String.eqb ft "simple_plain" then if others then Err TypeErr else simple_write false d
  else Err KeyErr.

(** convert.py:48-51: one file.  The default of 'ftype' is 'gmx' (line 38). *)
Definition convert_file (fuel : nat) (ftype : option string) (others : bool) (file : option bytes) : res bytes :=
  let ft := match ftype with Some s => s | None => "gmx"%string end in
  do (d, i) <- read_data_file fuel file;
  do d' <- finite_dict d;
  match finite_info i with
  | Ok i' => write (Some ft) true others d' (Some i')
  | Err e => (* the grid information is not finite: only the simple formats, which ignore it, are modelled *)
    if (String.eqb ft "gmx" || String.eqb ft "default")%bool then Err e else write (Some ft) true others d' None
  end.
(** convert.py:9-57 [convert], after the file names (input, output) are found
    (Utils.find_singles_to_singles).  Every output is written with [prepare_path]. *)
Definition bytes_of (s : string) : bytes := txt s.
Definition string_of (b : bytes) : string := string_of_list_ascii b.
Fixpoint convert (fuel : nat) (ftype : option string) (others : bool) (d : disk) (pairs : list (path * path)) : res disk :=
  match pairs with
  | [] => Ok d
  | (fin, fout) :: pairs =>
    do out <- convert_file fuel ftype others (option_map bytes_of (lookup (files d) fin));
    do d' <- do_call d (fout, [string_of out]);
    convert fuel ftype others d' pairs
  end.

(** [os.path.split] (posixpath): everything up to the last slash and the rest. *)
Fixpoint split_slash (s : string) : string * string :=
  match s with
  | EmptyString => (EmptyString, EmptyString)
  | String c t => let '(h, r) := split_slash t in
    if Ascii.eqb c "/" then (String c h, r) else match h with EmptyString => (EmptyString, String c r) | _ => (String c h, r) end
  end.
Fixpoint rstrip_slash (s : string) : string :=
  match s with
  | EmptyString => EmptyString
  | String c t => match rstrip_slash t with EmptyString => if Ascii.eqb c "/" then EmptyString else String c EmptyString | t' => String c t' end
  end.
(** utils.py:260-262: the path of a file name as in Utils.v. *)
Definition os_path (s : string) : path :=
  let '(h, r) := split_slash s in
  (match h with EmptyString => "."%string | _ => match rstrip_slash h with EmptyString => h | h' => h' end end, r).
(** convert.py:9-57 [convert].  [pop_fileopts] (utils.py:234) leaves 'outext' among the
    keyword arguments passed on to [write].  [ffuel] bounds the search for files. *)
Definition convert_all (ffuel fuel : nat) (ftype : option string) (d : disk) (base output : string) (o : fopts) : res disk :=
  let opts := pop_fileopts o in
  do pairs <- find_singles_to_singles ffuel (fun s => exists_path d (os_path s)) base output
     {| o_begin := Some (f_begin opts); o_end := Some (f_end opts); o_ext := Some (f_ext opts); o_outext := Some (f_outext opts) |};
  convert fuel ftype (match o_outext o with Some _ => true | None => false end) d (map (fun p => (os_path (fst p), os_path (snd p))) pairs).

(** ** Conversions which fail *)
(** convert.py:48-51: the data and the information passed to [write]. *)
Definition convert_read (fuel : nat) (ft : string) (file : option bytes) : res (dict (list Qc) * option ginfo) :=
  do (d, i) <- read_data_file fuel file;
  do d' <- finite_dict d;
  match finite_info i with
  | Ok i' => Ok (d', Some i')
  | Err e => if (String.eqb ft "gmx" || String.eqb ft "default")%bool then Err e else Ok (d', None)
  end.
Definition known_type (ft : string) : bool := existsb (String.eqb ft) ["default"; "gmx"; "simple"; "simple_plain"]%string.
(** One file: an unknown type is refused (write.py:47-50) before the path is prepared, other errors come after (utils.py:239-288).
    The disk afterwards and the exception, if any. *)
Definition convert_step (fuel : nat) (ftype : option string) (others : bool) (d : disk) (fin fout : path) : disk * option exn :=
  let ft := match ftype with Some s => s | None => "gmx"%string end in
  match convert_read fuel ft (option_map bytes_of (lookup (files d) fin)) with
  | Err e => (d, Some e)
  | Ok (data, info) =>
    if negb (known_type ft) then (d, Some KeyErr)
    else match prepare_ops d fout with
         | Err e => (d, Some e)
         | Ok pre =>
           let d1 := exec_ops d pre in
           match write (Some ft) true others data info with
           | Err e => (d1, Some e)
           | Ok b => (exec_ops d1 [OpenTrunc fout; Append fout (string_of b)], None)
           end
         end
  end.
Fixpoint convert_loop (fuel : nat) (ftype : option string) (others : bool) (d : disk) (pairs : list (path * path)) : disk * option exn :=
  match pairs with
  | [] => (d, None)
  | (fin, fout) :: pairs =>
    match convert_step fuel ftype others d fin fout with
    | (d', None) => convert_loop fuel ftype others d' pairs
    | r => r
    end
  end.
(** convert.py:9-57 [convert], with the disk also when it fails. *)
Definition convert_run (ffuel fuel : nat) (ftype : option string) (d : disk) (base output : string) (o : fopts) : disk * option exn :=
  let opts := pop_fileopts o in
  match find_singles_to_singles ffuel (fun s => exists_path d (os_path s)) base output
     {| o_begin := Some (f_begin opts); o_end := Some (f_end opts); o_ext := Some (f_ext opts); o_outext := Some (f_outext opts) |} with
  | Err e => (d, Some e)
  | Ok pairs => convert_loop fuel ftype (match o_outext o with Some _ => true | None => false end) d (map (fun p => (os_path (fst p), os_path (snd p))) pairs)
  end.
