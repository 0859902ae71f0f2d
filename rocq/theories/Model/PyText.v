(** How Python reads numbers from ASCII text: [int(text)] and [float(text)], as used by the parameter types of /repo/strata/strata.py:30-76
    and by click's INT, FLOAT and IntRange.  The exact value is kept: the rounding of [float] (and overflow to infinity) is not modelled, and
    neither is the limit of 4300 digits in recent versions of Python. *)
From Coq Require Import String Ascii.
From Verif.Base Require Import QcX Res Np Bytes.
From Verif.Model Require Import Text.
Local Open Scope list_scope.

(** White space around a number: tab, line ends and blank. *)
Definition blank (b : byte) : bool := let c := code b in ((9 <=? c) && (c <=? 13) || (c =? 32))%Z.
Fixpoint lstrip (s : bytes) : bytes := match s with [] => [] | b :: s' => if blank b then lstrip s' else s end.
Definition strip (s : bytes) : bytes := rev (lstrip (rev (lstrip s))).
(** [str.lower()]. *)
Definition lower1 (b : byte) : byte := if ((65 <=? code b) && (code b <=? 90))%Z then chr (code b + 32) else b.
Definition lower (s : bytes) : bytes := map lower1 s.

Definition digit_of (b : byte) : option Z := if ((48 <=? code b) && (code b <=? 57))%Z then Some (code b - 48)%Z else None.
(** A run of digits with single underscores between digits: its value and the number of digits.  [after] tells whether a digit was read last. *)
Fixpoint run_from (acc : Z) (k : nat) (after : bool) (s : bytes) : option (Z * nat) :=
  match s with
  | [] => if after then Some (acc, k) else None
  | b :: s => match digit_of b with
              | Some v => run_from (10 * acc + v) (S k) true s
              | None => if ((code b =? 95)%Z && after)%bool then run_from acc k false s else None
              end
  end.
Definition run (s : bytes) : option (Z * nat) := run_from 0 0 false s.
(** [int(text)]; [None] is a ValueError. *)
Definition py_int (s : bytes) : option Z := signed (fun s => option_map fst (run s)) Z.opp (strip s).

(** A number without sign and exponent. *)
Definition mantissa (s : bytes) : option Qc :=
  match split_dot s with
  | (i, None) => option_map (fun r => ZQ (fst r)) (run i)
  | (i, Some f) =>
    match i, f with
    | [], [] => None
    | [], _ => option_map (fun r => ZQ (fst r) / ZQ (10 ^ Z.of_nat (snd r))) (run f)
    | _, [] => option_map (fun r => ZQ (fst r)) (run i)
    | _, _ => match run i, run f with
              | Some a, Some b => Some (ZQ (fst a) + ZQ (fst b) / ZQ (10 ^ Z.of_nat (snd b)))
              | _, _ => None
              end
    end
  end.
(** Text before and after the first 'e' or 'E'. *)
Definition is_e (b : byte) : bool := ((code b =? 101) || (code b =? 69))%Z.
Fixpoint split_e (s : bytes) : bytes * option bytes :=
  match s with
  | [] => ([], None)
  | b :: s => if is_e b then ([], Some s) else let '(x, y) := split_e s in (b :: x, y)
  end.
Definition scale10 (m : Qc) (e : Z) : Qc := if (0 <=? e)%Z then m * ZQ (10 ^ e) else m / ZQ (10 ^ (- e)).
Definition unsigned_float (s : bytes) : option ext :=
  if (bytes_eqb (lower s) (txt "inf") || bytes_eqb (lower s) (txt "infinity"))%bool then Some PInf
  else if bytes_eqb (lower s) (txt "nan") then Some NaN
  else match split_e s with
       | (m, None) => option_map Fin (mantissa m)
       | (m, Some e) => match mantissa m, signed (fun s => option_map fst (run s)) Z.opp e with
                        | Some m, Some e => Some (Fin (scale10 m e))
                        | _, _ => None
                        end
       end.
Definition ext_opp (x : ext) : ext := match x with Fin q => Fin (- q) | PInf => NInf | NInf => PInf | NaN => NaN end.
(** [float(text)]; [None] is a ValueError. *)
Definition py_float (s : bytes) : option ext := signed unsigned_float ext_opp (strip s).
