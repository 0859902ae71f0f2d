(** Model of /repo/strata/dataformats/gmx_flow_version_1/: flow maps on disk.

    A file is its bytes.  Numbers in text are exact decimals and numbers in binary
    IEEE single precision (Base/Bytes.v); arithmetic in between is exact. *)
From Coq Require Import String Ascii.
From Verif.Base Require Import QcX Res Np Bytes Sums.
From Verif.Model Require Import Text.
Local Open Scope list_scope.

(** A Python dict with field names as keys. *)
Definition dict A := list (string * A).
Fixpoint get {A} (d : dict A) (l : string) : option A :=
  match d with [] => None | (k, v) :: d => if String.eqb k l then Some v else get d l end.
(** [d[l] = v]: an existing key keeps its place. *)
Fixpoint put {A} (d : dict A) (l : string) (v : A) : dict A :=
  match d with [] => [(l, v)] | (k, w) :: d => if String.eqb k l then (l, v) :: d else (k, w) :: put d l v end.
Definition key {A} (d : dict A) (l : string) : res A := of_option KeyErr (get d l).

(** The 'info' dict of a flow map (read.py:66-74). *)
Record ginfo := mkGinfo { g_shape : Z * Z; g_spacing : Qc * Qc; g_origin : Qc * Qc }.

(** ** write.py *)
Definition nl : bytes := [chr 10].
Definition sp : bytes := [chr 32].
Definition fmt12f (x : Qc) : bytes := pad_left 12 (fmt_f x).

(** The fixed part of the header, write.py:57-75. *)
Definition comments : bytes := txt "COMMENT Grid is regular but only non-empty bins are output" ++ nl ++
  txt "COMMENT There are 'NUMDATA' non-empty bins and that many values are stored for each field" ++ nl ++
  txt "COMMENT 'FIELDS' is the different fields for each bin:" ++ nl ++
  txt "COMMENT 'IX' and 'IY' are bin indices along x and y respectively" ++ nl ++
  txt "COMMENT 'N' is the average number of atoms" ++ nl ++
  txt "COMMENT 'M' is the average mass" ++ nl ++
  txt "COMMENT 'T' is the temperature" ++ nl ++
  txt "COMMENT 'U' and 'V' is the mass flow along x and y respectively" ++ nl ++
  txt "COMMENT Data is stored as 'NUMDATA' counts for each field in 'FIELDS', in order" ++ nl ++
  txt "COMMENT 'IX' and 'IY' are 64-bit unsigned integers" ++ nl ++
  txt "COMMENT Other fields are 32-bit floating point numbers" ++ nl ++
  txt "COMMENT Example: with 'NUMDATA' = 4 and 'FIELDS' = 'IX IY N T', the data following the '\0' marker is 4 + 4 64-bit integers and then 4 + 4 32-bit floating point numbers" ++ nl.
(** write.py:50-75 [write_header], without the final NUL (77). *)
Definition header (i : ginfo) (num : Z) : bytes :=
  txt "FORMAT GMX_FLOW_1" ++ nl ++
  (txt "ORIGIN " ++ fmt12f (fst (g_origin i)) ++ sp ++ fmt12f (snd (g_origin i))) ++ nl ++
  (txt "SHAPE " ++ fmt_int (fst (g_shape i)) ++ sp ++ fmt_int (snd (g_shape i))) ++ nl ++
  (txt "SPACING " ++ fmt12f (fst (g_spacing i)) ++ sp ++ fmt12f (snd (g_spacing i))) ++ nl ++
  (txt "NUMDATA " ++ fmt_int num) ++ nl ++
  txt "FIELDS IX IY N T M U V" ++ nl ++ comments.
Definition nul : byte := chr 0.

(** [a[mask]] with a boolean mask; IndexError if the lengths differ. *)
Definition masked {A} (mask : list bool) (a : list A) : res (list A) :=
  if Nat.eqb (length a) (length mask) then Ok (map snd (filter fst (combine mask a))) else Err IndexErr.
(** write.py:6. *)
Definition stored_fields : list string := ["N"; "T"; "M"; "U"; "V"]%string.
Definition put_u64 (z : nat) : bytes := le_bytes 8 (Z.of_nat z).
Definition put_f32 (x : Qc) : bytes := le_bytes 4 (f32_bits x).

(** write.py:9-48 [write_data] with the default check_label: the bytes of the file.
    A negative shape makes empty index arrays (np.arange). *)
Definition gmx_write (d : dict (list Qc)) (i : ginfo) : res bytes :=
  let nx := Z.to_nat (fst (g_shape i)) in let ny := Z.to_nat (snd (g_shape i)) in
  do m <- key d "M";
  let mask := map (fun v => negb (qeq v 0)) m in
  let num := length (filter (fun b => b) mask) in
  do ix <- masked mask (grid nx ny (fun a _ => a));
  do iy <- masked mask (grid nx ny (fun _ b => b));
  do vs <- rmapM (fun l => do v <- key d l; masked mask v) stored_fields;
  Ok (header i (Z.of_nat num) ++ nul ::
      flat_map put_u64 ix ++ flat_map put_u64 iy ++ flat_map (flat_map put_f32) vs).

(** ** read.py *)
(** [bytes.find(b'\0')]. *)
Fixpoint find_nul (b : bytes) : option nat :=
  match b with [] => None | x :: b => if (code x =? 0)%Z then Some 0%nat else option_map S (find_nul b) end.

(** read.py:71-88 [read_header_string]: the header and the position of the file
    pointer.  The loop reads 1024 bytes at a time; at the end of the file it reads
    nothing, for ever.  A position before the start of the file is an OSError. *)
Fixpoint read_header_string (fuel : nat) (file : bytes) (pos : nat) (acc : bytes) : res (bytes * nat) :=
  match fuel with
  | O => Err OutOfFuel
  | S fuel =>
    let buf := firstn 1024 (skipn pos file) in
    let after := (pos + length buf)%nat in
    match find_nul buf with
    | Some k =>
      if negb (forallb is_ascii (firstn k buf)) then Err UnicodeErr else
      let target := (Z.of_nat after - (1024 - Z.of_nat k - 1))%Z in
      if (target <? 0)%Z then Err OSErr else Ok (acc ++ firstn k buf, Z.to_nat target)
    | None => if negb (forallb is_ascii buf) then Err UnicodeErr else read_header_string fuel file after (acc ++ buf)
    end
  end.

(** What the header has said so far. *)
Record hstate := mkH { h_shape : option (list Z); h_spacing : option (list Qc); h_origin : option (list Qc);
                       h_fields : option (list bytes); h_num : option Z }.
Definition h0 : hstate := mkH None None None None None.

(** [line.split()[1:3]]. *)
Definition two {A} (l : list A) : list A := firstn 2 (skipn 1 l).
(** read.py:59-69, 93-105: one line of the header. *)
Definition read_line (st : hstate) (line : bytes) : res hstate :=
  match words line with
  | [] => Err IndexErr
  | w :: _ =>
    let t := upper w in let ws := words line in
    if bytes_eqb t (txt "SHAPE") then do v <- rmapM to_int (two ws); Ok (mkH (Some v) (h_spacing st) (h_origin st) (h_fields st) (h_num st))
    else if bytes_eqb t (txt "SPACING") then do v <- rmapM to_float (two ws); Ok (mkH (h_shape st) (Some v) (h_origin st) (h_fields st) (h_num st))
    else if bytes_eqb t (txt "ORIGIN") then do v <- rmapM to_float (two ws); Ok (mkH (h_shape st) (h_spacing st) (Some v) (h_fields st) (h_num st))
    else if bytes_eqb t (txt "FIELDS") then Ok (mkH (h_shape st) (h_spacing st) (h_origin st) (Some (skipn 1 ws)) (h_num st))
    else if bytes_eqb t (txt "NUMDATA") then
      match ws with _ :: n :: _ => do v <- to_int n; Ok (mkH (h_shape st) (h_spacing st) (h_origin st) (h_fields st) (Some v)) | _ => Err IndexErr end
    else Ok st
  end.
Fixpoint read_lines (st : hstate) (ls : list bytes) : res hstate :=
  match ls with [] => Ok st | l :: ls => do st <- read_line st l; read_lines st ls end.

(** [np.fromfile(fp, dtype, count)] for items of [size] bytes: the items and the new
    position.  Fewer than [count] items leave the pointer at the end of the file. *)
Definition chunk (size : nat) (b : bytes) (k : nat) : bytes := firstn size (skipn (k * size) b).
Definition fromfile (size : nat) (count : Z) (file : bytes) (pos : nat) : list bytes * nat :=
  let rest := skipn pos file in let avail := (length rest / size)%nat in
  let n := if (count <? 0)%Z then avail else Nat.min (Z.to_nat count) avail in
  (map (chunk size rest) (seq 0 n),
   if ((count <? 0)%Z || (Z.of_nat n =? count)%Z)%bool then (pos + n * size)%nat else Nat.max pos (length file)).
(** read.py:40-54 [read_values]; a field without data type is a KeyError. *)
Definition item_size (l : bytes) : option nat :=
  if (bytes_eqb l (txt "IX") || bytes_eqb l (txt "IY"))%bool then Some 8%nat
  else if existsb (fun f => bytes_eqb l (txt f)) stored_fields then Some 4%nat else None.
Fixpoint read_values (num : Z) (fields : list bytes) (file : bytes) (pos : nat) (acc : dict (list bytes)) : res (dict (list bytes)) :=
  match fields with
  | [] => Ok acc
  | l :: fields =>
    do size <- of_option KeyErr (item_size l);
    let '(items, pos') := fromfile size num file pos in
    read_values num fields file pos' (put acc (string_of_list_ascii l) items)
  end.

Definition set_nth {A} (k : nat) (v : A) (l : list A) : list A :=
  if (k <? length l)%nat then firstn k l ++ v :: skipn (S k) l else l.
(** [grid[l][ix, iy] = values] (read.py:33-34) on an array of zeros.  Index arrays of
    different lengths and values of another length are errors (numpy's broadcasting
    of arrays of length one is not modelled), as is an index outside the grid. *)
Definition scatter (nx ny : nat) (ix iy : list Z) (vs : list ext) : res (list ext) :=
  if negb (Nat.eqb (length ix) (length iy)) then Err IndexErr else
  if negb (Nat.eqb (length vs) (length ix)) then Err ValueErr else
  if negb (forallb (fun p => (fst p <? Z.of_nat nx) && (snd p <? Z.of_nat ny))%Z (combine ix iy)) then Err IndexErr else
  Ok (fold_left (fun g p => set_nth (Z.to_nat (fst (fst p)) * ny + Z.to_nat (snd (fst p))) (snd p) g)
        (combine (combine ix iy) vs) (repeat (Fin 0) (nx * ny))).

Definition pair_of {A} (l : list A) : res (A * A) := match l with [a; b] => Ok (a, b) | _ => Err ValueErr end.

(** read.py:5-38 [read_data] (with [read_header], 56-109).  [fuel] bounds the number
    of chunks read for the header. *)
Definition gmx_read (fuel : nat) (file : bytes) : res (dict (list ext) * ginfo) :=
  do (text, pos) <- read_header_string fuel file 0 [];
  do st <- read_lines h0 (lines text);
  do shape <- of_option KeyErr (h_shape st);
  match shape with
  | [nx; ny] =>
    do fields <- of_option UnboundErr (h_fields st);
    do num <- of_option UnboundErr (h_num st);
    do raw <- read_values num fields file pos [];
    do origin <- of_option KeyErr (h_origin st); do (x0, y0) <- pair_of origin;
    do spacing <- of_option KeyErr (h_spacing st); do (dx, dy) <- pair_of spacing;
    if ((nx <? 0) || (ny <? 0))%Z%bool then Err ValueErr else
    let cx := Z.to_nat nx in let cy := Z.to_nat ny in
    let half := Q2Qc (1 # 2) in
    do vs <- rmapM (fun l =>
      do ix <- key raw "IX"; do iy <- key raw "IY"; do v <- key raw l;
      do g <- scatter cx cy (map le_value ix) (map le_value iy) (map (fun b => f32_value (le_value b)) v); Ok (l, g)) stored_fields;
    Ok (("X"%string, grid cx cy (fun i _ => Fin (x0 + dx * (NQ i + half)))) ::
        ("Y"%string, grid cx cy (fun _ j => Fin (y0 + dy * (NQ j + half)))) :: vs,
        mkGinfo (nx, ny) (dx, dy) (x0, y0))
  | _ => Err IndexErr
  end.
