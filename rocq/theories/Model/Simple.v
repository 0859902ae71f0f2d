(** Model of /repo/strata/dataformats/simple/: the simple binary and plain text formats. *)
From Coq Require Import String Ascii.
From Verif.Base Require Import QcX Res Np Bytes Sums Sort.
From Verif.Model Require Import Text Gmx.
Local Open Scope list_scope.

(** simple/write.py:30, simple/read.py:145. *)
Definition simple_fields : list string := ["X"; "Y"; "N"; "T"; "M"; "U"; "V"]%string.

(** ** simple/write.py *)
(** A number stored as float32. *)
Definition f32 (x : Qc) : ext := f32_value (f32_bits x).
(** ['%6f' % v] (write.py:27). *)
Definition fmt_ext (v : ext) : bytes :=
  pad_left 6 match v with Fin y => fmt_f y | PInf => txt "inf" | NInf => txt "-inf" | NaN => txt "nan" end.
Fixpoint join (sep : bytes) (l : list bytes) : bytes :=
  match l with [] => [] | [w] => w | w :: l => w ++ sep ++ join sep l end.
(** The rows of [np.array(columns).T] (write.py:39); columns of different lengths are a ValueError. *)
Definition table_rows (cols : list (list Qc)) : res (list (list Qc)) :=
  match cols with
  | [] => Ok []
  | c :: _ => if forallb (fun c' => Nat.eqb (length c') (length c)) cols
              then Ok (map (fun k => map (fun c => nth k c 0) cols) (seq 0 (length c))) else Err ValueErr
  end.
(** write.py:22-23: interleaved float32. *)
Definition binsimple (rows : list (list Qc)) : bytes := flat_map (flat_map put_f32) rows.
(** write.py:25-28: a header line and one line for each row. *)
Definition plainsimple (rows : list (list Qc)) : bytes :=
  join sp (map txt simple_fields) ++ nl ++ flat_map (fun r => join sp (map (fun x => fmt_ext (f32 x)) r) ++ nl) rows.
(** write.py:6-47 [write_data] for a dict: the bytes of the file. *)
Definition simple_write (binary : bool) (d : dict (list Qc)) : res bytes :=
  do cols <- rmapM (key d) simple_fields;
  do rows <- table_rows cols;
  Ok (if binary then binsimple rows else plainsimple rows).

(** ** simple/read.py *)
(** UTF-8 decoding, byte after byte: how many bytes the current character still needs,
    bounds for the next one, and the number of complete characters. *)
Record utf8 := mkUtf8 { u_need : nat; u_lo : Z; u_hi : Z; u_chars : nat }.
Definition utf8_start : utf8 := mkUtf8 0 128 191 0.
Definition utf8_step (u : utf8) (b : byte) : option utf8 :=
  let c := code b in let n := u_chars u in
  match u_need u with
  | O => if (c <? 128)%Z then Some (mkUtf8 0 128 191 (S n))
         else if (c <? 194)%Z then None
         else if (c <? 224)%Z then Some (mkUtf8 1 128 191 n)
         else if (c =? 224)%Z then Some (mkUtf8 2 160 191 n)
         else if (c =? 237)%Z then Some (mkUtf8 2 128 159 n)
         else if (c <? 240)%Z then Some (mkUtf8 2 128 191 n)
         else if (c =? 240)%Z then Some (mkUtf8 3 144 191 n)
         else if (c <? 244)%Z then Some (mkUtf8 3 128 191 n)
         else if (c =? 244)%Z then Some (mkUtf8 3 128 143 n)
         else None
  | S k => if ((u_lo u <=? c) && (c <=? u_hi u))%Z%bool then Some (mkUtf8 k 128 191 (if Nat.eqb k 0 then S n else n)) else None
  end.
Fixpoint utf8_run (u : utf8) (s : bytes) : option utf8 :=
  match s with [] => Some u | b :: s => match utf8_step u b with Some u => utf8_run u s | None => None end end.
(** read.py:28-34 [is_binary].  [fp.read(512)] of a text file decodes the first block
    of 8192 bytes; if it has less than 512 characters the file ends with it, and a
    character cut off there is an error, too.  UTF-8 is the assumed locale; '\r\n'
    is counted as two characters. *)
Definition is_binary (file : bytes) : bool :=
  match utf8_run utf8_start (firstn (8 * 1024) file) with
  | None => true
  | Some u => ((0 <? u_need u) && (u_chars u <? 512))%nat%bool
  end.

(** read.py:132-158 [read_binsimple]: [raw[i::7]]; bytes which do not fill a number are ignored. *)
Definition strided {A} (i stride : nat) (raw : list A) (d : A) : list A :=
  map (fun k => nth (i + stride * k) raw d) (seq 0 ((length raw - i + (stride - 1)) / stride)).
Definition read_binsimple (file : bytes) : dict (list ext) :=
  let raw := map (fun b => f32_value (le_value b)) (fst (fromfile 4 (-1) file 0)) in
  map (fun p => (fst p, strided (snd p) 7 raw NaN)) (combine simple_fields (seq 0 7)).

(** Lines of a file opened as text. *)
Fixpoint flines_from (line : bytes) (s : bytes) : list bytes :=
  match s with
  | [] => match line with [] => [] | _ => [line] end
  | b :: s' =>
    if (code b =? 10)%Z then line :: flines_from [] s'
    else if (code b =? 13)%Z then line :: match s' with c :: s'' => if (code c =? 10)%Z then flines_from [] s'' else flines_from [] s' | [] => [] end
    else flines_from (line ++ [b]) s'
  end.
Definition flines (s : bytes) : list bytes := flines_from [] s.
(** [line.split('#')]. *)
Fixpoint split_hash (s : bytes) : bytes * list bytes :=
  match s with
  | [] => ([], [])
  | b :: s => let '(x, y) := split_hash s in if (code b =? 35)%Z then ([], x :: y) else (b :: x, y)
  end.
(** numpy's LineSplitter: words before a '#'. *)
Definition split_line (l : bytes) : list bytes := words (fst (split_hash l)).
(** The first line with words gives the names; a '#' before them is removed. *)
Fixpoint header_names (ls : list bytes) : option (list bytes * list bytes) :=
  match ls with
  | [] => None
  | l :: ls =>
    let l' := match snd (split_hash l) with [] => l | rest => concat rest end in
    match split_line l' with [] => header_names ls | ws => Some (ws, ls) end
  end.
(** A word as float; numpy's genfromtxt reads what is no number as nan.  Exponents
    and variants of 'nan' and 'inf' are not modelled. *)
Definition to_ext (w : bytes) : ext :=
  match to_float w with
  | Ok x => Fin x
  | Err _ => if bytes_eqb (upper w) (txt "INF") then PInf else if bytes_eqb (upper w) (txt "-INF") then NInf else NaN
  end.
(** read.py:161-183 [read_plainsimple] ([np.genfromtxt(filename, names=True)]): the
    columns and the number of rows.  An empty file is an IndexError, a row with another
    number of words than the header a ValueError.  Names are not changed (numpy removes
    punctuation from them). *)
Definition read_plainsimple (file : bytes) : res (dict (list ext) * nat) :=
  match header_names (flines file) with
  | None => Err IndexErr
  | Some (names, ls) =>
    let rows := filter (fun ws => negb (Nat.eqb (length ws) 0)) (map split_line ls) in
    if negb (forallb (fun ws => Nat.eqb (length ws) (length names)) rows) then Err ValueErr else
    Ok (fold_left (fun d p => put d (string_of_list_ascii (fst p)) (map (fun ws => to_ext (nth (snd p) ws [])) rows))
          (combine names (seq 0 (length names))) [], length rows)
  end.

(** [x.round(5)]: five decimals, ties to even, exact. *)
Definition round5 (x : Qc) : Qc := ZQ (qround (x * ZQ (10 ^ 5))) / ZQ (10 ^ 5).

(** Grid information: read.py:118-127.  'num_bins' is the product of the shape. *)
Record minfo := mkMinfo { m_shape : nat * nat; m_spacing : ext * ext; m_origin : Qc * Qc }.

(** [while np.abs(y[n] - y0) < 1e-4: n += 1]. *)
Definition tol4 : Qc := Q2Qc (1 # 10000).
Fixpoint count_close (y0 : Qc) (ys : list Qc) : nat :=
  match ys with [] => 0%nat | y :: ys => if qlt (qabs (y - y0)) tol4 then S (count_close y0 ys) else 0%nat end.
(** read.py:77-95 [calc_shape]. *)
Definition calc_shape (X Y : list Qc) : res (nat * nat) :=
  match isort lexle (map (fun p => [snd p; fst p]) (combine X Y)) with
  | [] => Err IndexErr
  | r :: rs => let nx := S (count_close (nth 0 r 0) (map (fun r => nth 0 r 0) rs)) in Ok (nx, (length X / nx)%nat)
  end.
(** read.py:97-110 [calc_spacing]: a division of numpy floats by 0 does not raise. *)
Definition calc_1d (xs : list Qc) (n : nat) : res ext :=
  do x0 <- of_option ValueErr (list_min xs); do x1 <- of_option ValueErr (list_max xs);
  Ok (ediv (x1 - x0) (NQ n - 1)).
(** read.py:63-129 [calc_information]. *)
Definition calc_information (X Y : list Qc) : res minfo :=
  if negb (Nat.eqb (length X) (length Y)) then Err ValueErr else
  do (nx, ny) <- calc_shape X Y;
  do dx <- calc_1d X nx; do dy <- calc_1d Y ny;
  do x0 <- of_option ValueErr (list_min X); do y0 <- of_option ValueErr (list_min Y);
  Ok (mkMinfo (nx, ny) (dx, dy) (x0, y0)).

(** [x0 + dx * k]. *)
Definition along (x0 : Qc) (dx : ext) (k : nat) : ext :=
  match dx with
  | Fin d => Fin (x0 + d * NQ k)
  | PInf => if Nat.eqb k 0 then NaN else PInf
  | NInf => if Nat.eqb k 0 then NaN else NInf
  | NaN => NaN
  end.
(** Coordinates which are not finite are not modelled: RuntimeErr. *)
Definition finite (v : ext) : res Qc := match v with Fin x => Ok x | _ => Err RuntimeErr end.
(** read.py:5-60 [read_data] with the default decimals.  A plain file with one row gives
    0-dimensional arrays, which have no [len]. *)
Definition simple_read (file : bytes) : res (dict (list ext) * minfo) :=
  do (d, scalar) <- (if is_binary file then Ok (read_binsimple file, false)
                     else do (d, n) <- read_plainsimple file; Ok (d, Nat.eqb n 1));
  do X <- key d "X"; do Y <- key d "Y";
  if scalar : bool then Err TypeErr else
  do xs <- rmapM finite X; do ys <- rmapM finite Y;
  do i <- calc_information (map round5 xs) (map round5 ys);
  let '(nx, ny) := m_shape i in
  Ok (put (put d "X" (grid nx ny (fun a _ => along (fst (m_origin i)) (fst (m_spacing i)) a)))
          "Y" (grid nx ny (fun _ b => along (snd (m_origin i)) (snd (m_spacing i)) b)), i).
