(** Python's text functions used by the file formats, on ASCII text. *)
From Coq Require Import String Ascii Decimal DecimalString.
From Verif.Base Require Import QcX Res Np Bytes.
From Verif.Model Require Import Utils.
Local Open Scope list_scope.

(** [str.isspace] and the line boundaries of [str.splitlines], ASCII only. *)
Definition is_space (b : byte) : bool := let c := code b in ((9 <=? c) && (c <=? 13) || (28 <=? c) && (c <=? 32))%Z.
Definition is_break (b : byte) : bool := let c := code b in ((10 <=? c) && (c <=? 13) || (28 <=? c) && (c <=? 30))%Z.
Definition is_ascii (b : byte) : bool := (code b <? 128)%Z.

(** [str.split()]; [tok] is the word being read. *)
Fixpoint words_from (tok : bytes) (s : bytes) : list bytes :=
  match s with
  | [] => match tok with [] => [] | _ => [tok] end
  | b :: s => if is_space b then match tok with [] => words_from [] s | _ => tok :: words_from [] s end
              else words_from (tok ++ [b]) s
  end.
Definition words (s : bytes) : list bytes := words_from [] s.

(** [str.splitlines()]: '\r\n' is one line boundary, a final boundary starts no new line. *)
Fixpoint lines_from (line : bytes) (s : bytes) : list bytes :=
  match s with
  | [] => match line with [] => [] | _ => [line] end
  | b :: s' =>
    if is_break b then
      line :: (if (code b =? 13)%Z then match s' with c :: s'' => if (code c =? 10)%Z then lines_from [] s'' else lines_from [] s' | [] => [] end
               else lines_from [] s')
    else lines_from (line ++ [b]) s'
  end.
Definition lines (s : bytes) : list bytes := lines_from [] s.

(** [str.upper()]. *)
Definition upper1 (b : byte) : byte := if ((97 <=? code b) && (code b <=? 122))%Z then chr (code b - 32) else b.
Definition upper (s : bytes) : bytes := map upper1 s.

Definition bytes_eqb (a b : bytes) : bool := if list_eq_dec ascii_dec a b then true else false.

(** A non-empty run of decimal digits. *)
Definition digits (s : bytes) : option Z :=
  match s with [] => None | _ =>
    match NilEmpty.uint_of_string (string_of_list_ascii s) with Some u => Some (Z.of_N (N.of_uint u)) | None => None end
  end.
(** Optional sign. *)
Definition signed {A} (f : bytes -> option A) (neg : A -> A) (s : bytes) : option A :=
  match s with
  | b :: s' => if (code b =? 45)%Z then option_map neg (f s') else if (code b =? 43)%Z then f s' else f s
  | [] => f s
  end.
(** [int(s)] of a word (no underscores, no surrounding white space); ValueError otherwise. *)
Definition to_int (s : bytes) : res Z := of_option ValueErr (signed digits Z.opp s).
(** Text before and after the first '.'. *)
Fixpoint split_dot (s : bytes) : bytes * option bytes :=
  match s with
  | [] => ([], None)
  | b :: s => if (code b =? 46)%Z then ([], Some s) else let '(x, y) := split_dot s in (b :: x, y)
  end.
(** [float(s)] of a word in decimal notation, exact.  Exponents, 'nan' and 'inf' are
    not modelled (they give ValueErr here). *)
Definition udecimal (s : bytes) : option Qc :=
  match split_dot s with
  | (i, None) => option_map ZQ (digits i)
  | (i, Some f) =>
    match i, f with
    | [], [] => None
    | [], _ => option_map (fun v => ZQ v / ZQ (10 ^ Z.of_nat (length f))) (digits f)
    | _, [] => option_map ZQ (digits i)
    | _, _ => match digits i, digits f with
              | Some v, Some w => Some (ZQ v + ZQ w / ZQ (10 ^ Z.of_nat (length f)))
              | _, _ => None
              end
    end
  end.
Definition to_float (s : bytes) : res Qc := of_option ValueErr (signed udecimal Qcopp s).

(** ["{}".format(n)] of an integer. *)
Definition fmt_int (z : Z) : bytes := txt (if (z <? 0)%Z then "-" ++ dec (Z.to_N (- z)) else dec (Z.to_N z))%string.
(** ['%f']: six decimals of the exact value, ties to even, sign of [x] (a negative
    number which rounds to zero is '-0.000000'). *)
Definition fixed6 (n : Z) : bytes :=
  let f := dec (Z.to_N (n mod 10 ^ 6)) in
  txt (dec (Z.to_N (n / 10 ^ 6)) ++ "." ++ zeros (6 - String.length f) ++ f)%string.
Definition fmt_f (x : Qc) : bytes :=
  let s := fixed6 (qround (qabs x * ZQ (10 ^ 6))) in if qlt x 0 then chr 45 :: s else s.
(** Right-aligned in a field, ['{:12f}'] with [w] = 12. *)
Definition pad_left (w : nat) (s : bytes) : bytes := repeat (chr 32) (w - length s) ++ s.

(** The number which ['%f'] shows. *)
Definition round6 (x : Qc) : Qc := let v := ZQ (qround (qabs x * ZQ (10 ^ 6))) / ZQ (10 ^ 6) in if qlt x 0 then - v else v.
