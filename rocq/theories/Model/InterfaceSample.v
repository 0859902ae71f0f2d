(** Model of /repo/strata/interface/sample.py: area and length of collected interfaces. *)
From Coq Require Import Reals.
From Verif.Base Require Import QcX Res Np.
From Verif.Model Require Import Collect.
Local Open Scope list_scope.

(** [np.isclose(a, b).all()] for arrays: arrays of length one are repeated, other lengths must agree. *)
Definition allclose_bc (a b : list Qc) : res bool :=
  let both l m := forallb (fun p => close (fst p) (snd p)) (combine l m) in
  if Nat.eqb (length a) (length b) then Ok (both a b)
  else match a, b with
       | [x], _ => Ok (both (repeat x (length b)) b)
       | _, [y] => Ok (both a (repeat y (length a)))
       | _, _ => Err ValueErr
       end.

(** sample.py:103-107 [get_trapezoid_base]: i from 0 to len(xleft) - 2; positions missing in xright raise IndexError. *)
Fixpoint trapezoid_bases (xl xr : list Qc) : res (list Qc) :=
  match xl with
  | a :: ((a' :: _) as xl') =>
    match xr with
    | b :: ((b' :: _) as xr') =>
      do rest <- trapezoid_bases xl' xr'; Ok (Q2Qc (1 # 2) * ((b - a) + (b' - a')) :: rest)
    | _ => Err IndexErr
    end
  | _ => Ok []
  end.

(** sample.py:92-123 [get_area_of_interface].  [zip] evaluates the generator of bases only as far as
    there are heights; as [xs] and [ys] are columns of one file they have equal lengths and the two agree. *)
Definition get_area_of_interface (xs ys : list Qc) : res Qc :=
  let n := Nat.div (length xs) 2 in
  let yl := firstn n ys in let yr := rev (skipn n ys) in
  let xl := firstn n xs in let xr := rev (skipn n xs) in
  do same <- allclose_bc yl yr;
  if same then
    do bases <- trapezoid_bases xl xr;
    Ok (qsum (map (fun p => fst p * snd p) (combine (qdiff yl) bases)))
  else Err TypeErr.

(** sample.py:60-82: the loop over the files; TypeErrors are printed and the file is left out, other
    errors end the run.  [None] stands for a file which cannot be read, and [f] for the sampled
    variable.  Printing, the progress bar and the figure are not modelled; the output file has the
    returned rows. *)
Fixpoint sample_loop (f : list Qc -> list Qc -> res Qc) (files : list (option (list Qc * list Qc))) (i : nat) (dt : Qc) : res (list (Qc * Qc)) :=
  match files with
  | [] => Ok []
  | None :: _ => Err OSErr
  | Some (xs, ys) :: files =>
    match f xs ys with
    | Err TypeErr => sample_loop f files (S i) dt
    | Err e => Err e
    | Ok v => do rest <- sample_loop f files (S i) dt; Ok ((NQ i * dt, v) :: rest)
    end
  end.
Definition sample_areas (files : list (option (list Qc * list Qc))) (dt : Qc) : res (list (Qc * Qc)) :=
  sample_loop get_area_of_interface files 0 dt.

(** sample.py:126-139 [calc_length], over the real numbers. *)
Fixpoint rdiff (l : list R) : list R :=
  match l with a :: ((b :: _) as l') => (b - a)%R :: rdiff l' | _ => [] end.
Fixpoint rsum (l : list R) : R := match l with [] => 0%R | x :: l => (x + rsum l)%R end.
Definition calc_length (xs ys : list R) : R :=
  rsum (map (fun p => sqrt (fst p * fst p + snd p * snd p)%R) (combine (rdiff xs) (rdiff ys))).
