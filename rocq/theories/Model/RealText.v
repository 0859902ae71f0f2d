(** Text of real numbers: Python's ['%.<d>f'] and ['%g'], as used by /repo/strata/interface/sample.py:79,
    /repo/strata/interface/angle.py:188 and /repo/strata/sample_average.py:140-147.  A number is a real number here
    (its rounding to a float is not modelled); [None] is not a number. *)
From Coq Require Import String Ascii Reals.
From Verif.Base Require Import QcX QcR Res Np Bytes.
From Verif.Model Require Import Utils Text Table.
Local Open Scope list_scope.
Local Open Scope R_scope.

(** The nearest integer, ties to even. *)
Definition rround (x : R) : Z :=
  let f := Int_part x in let r := x - IZR f in
  if Rlt_dec r (1 / 2) then f else if Rlt_dec (1 / 2) r then (f + 1)%Z else if Z.even f then f else (f + 1)%Z.
(** ['%.<d>f'] for [d] >= 1. *)
Definition fmt_fixedR (d : nat) (x : R) : bytes :=
  let s := fixed d (rround (Rabs x * IZR (10 ^ Z.of_nat d))) in if Rlt_dec x 0 then chr 45 :: s else s.
Definition fmt_fixed_opt (d : nat) (x : option R) : bytes := match x with Some x => fmt_fixedR d x | None => txt "nan" end.

(** ['%g']: six significant digits.  The exponent [e] of a positive number, 10^e <= x < 10^(e + 1). *)
Definition exponent (x : R) : Z := Int_part (ln x / ln 10).
(** The digits as an integer of six digits, and the exponent of the first one. *)
Definition significant (x : R) : Z * Z :=
  let e := exponent x in
  let m := rround (x / powerRZ 10 (e - 5)) in
  if (m =? 1000000)%Z then (100000%Z, (e + 1)%Z) else (m, e).
(** Zeros at the end are left out, and the point if nothing follows it. *)
Fixpoint drop_zeros_rev (s : bytes) : bytes :=
  match s with
  | b :: s' => if (code b =? 48)%Z then drop_zeros_rev s' else if (code b =? 46)%Z then s' else s
  | [] => []
  end.
Definition drop_zeros (s : bytes) : bytes := rev (drop_zeros_rev (rev s)).
(** At least two digits. *)
Definition exponent_text (e : Z) : bytes :=
  let t := dec (Z.to_N (Z.abs e)) in
  txt ((if (e <? 0)%Z then "e-" else "e+") ++ zeros (2 - String.length t) ++ t)%string.
Definition digits_g (m e : Z) : bytes :=
  if ((-4 <=? e) && (e <? 6))%Z%bool then
    if (e =? 5)%Z then fmt_int m else drop_zeros (fixed (Z.to_nat (5 - e)) m)
  else drop_zeros (fixed 5 m) ++ exponent_text e.
Definition fmt_g (x : R) : bytes :=
  if Req_EM_T x 0 then txt "0"
  else let (m, e) := significant (Rabs x) in let s := digits_g m e in if Rlt_dec x 0 then chr 45 :: s else s.
Definition fmt_g_opt (x : option R) : bytes := match x with Some x => fmt_g x | None => txt "nan" end.
