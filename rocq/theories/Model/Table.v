(** Text tables: [np.savetxt(..., fmt='%.3f', delimiter=' ', header=..., comments='')] and
    [np.genfromtxt(file, unpack=True)], as used by /repo/strata/interface/. *)
From Coq Require Import String Ascii.
From Verif.Base Require Import QcX Res Np Bytes.
From Verif.Model Require Import Utils Text Gmx Simple.
Local Open Scope list_scope.

(** ['%.<d>f']: [d] >= 1 decimals of the exact value, ties to even, the sign of [x]. *)
Definition fixed (d : nat) (n : Z) : bytes :=
  let f := dec (Z.to_N (n mod 10 ^ Z.of_nat d)) in
  txt (dec (Z.to_N (n / 10 ^ Z.of_nat d)) ++ "." ++ zeros (d - String.length f) ++ f)%string.
Definition fmt_fixed (d : nat) (x : Qc) : bytes :=
  let s := fixed d (qround (qabs x * ZQ (10 ^ Z.of_nat d))) in if qlt x 0 then chr 45 :: s else s.

(** [np.savetxt]: the header (its lines end with a newline here) and one line for each row. *)
Definition savetxt (header : list bytes) (rows : list (list Qc)) : bytes :=
  flat_map (fun l => l ++ nl) header ++ flat_map (fun r => join sp (map (fmt_fixed 3) r) ++ nl) rows.

(** [np.genfromtxt(file)]: the rows of words; lines with another number of words than the first one with words
    are a ValueError.  [np.genfromtxt] decodes the file and reads words as in Model/Simple.v. *)
Definition genfromtxt (file : bytes) : res (list (list ext)) :=
  let rows := filter (fun ws => negb (Nat.eqb (List.length ws) 0)) (map split_line (flines file)) in
  match rows with
  | [] => Ok []
  | r :: _ => if forallb (fun ws => Nat.eqb (List.length ws) (List.length r)) rows then Ok (map (map to_ext) rows) else Err ValueErr
  end.
(** [xs, ys = np.genfromtxt(file, unpack=True)].  Axes of length one are removed from the table ([np.squeeze]) before
    it is transposed: two rows of one word, or one row of two words, give two numbers [inr]; other numbers of columns cannot
    be unpacked.  A single number has no length (TypeError). *)
Definition unpack2 (file : bytes) : res ((list ext * list ext) + (ext * ext)) :=
  do rows <- genfromtxt file;
  match rows with
  | [] => Err ValueErr
  | [[x; y]] | [[x]; [y]] => Ok (inr (x, y))
  | [[_]] => Err TypeErr
  | [_] => Err ValueErr
  | r :: _ => if Nat.eqb (List.length r) 2 then Ok (inl (map (fun r => nth 0 r NaN) rows, map (fun r => nth 1 r NaN) rows)) else Err ValueErr
  end.
(** Two columns of finite numbers; others are not modelled further (RuntimeErr).  Single numbers have no [len]: TypeError at its
    first use in the callers. *)
Definition read_columns (file : option bytes) : res (list Qc * list Qc) :=
  match file with
  | None => Err OSErr
  | Some f =>
    do c <- unpack2 f;
    match c with
    | inr _ => Err TypeErr
    | inl (xs, ys) => do xs <- rmapM finite xs; do ys <- rmapM finite ys; Ok (xs, ys)
    end
  end.
