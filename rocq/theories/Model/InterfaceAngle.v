(** Model of /repo/strata/interface/angle.py: contact angles of interface files. *)
From Coq Require Import String Reals.
From Verif.Base Require Import QcX QcR Res Np Sort Bytes.
From Verif.Model Require Utils Formats Average.
From Verif.Model Require Import Text Gmx Simple Table ContactAngle InterfaceFiles.
Import Utils(disk, fopts).
Local Open Scope list_scope.
Local Notation length := List.length.

(** angle.py:195-210: [int(len(xs)/2)] points from the front and as many from the back; [sort(order='Y')] of a structured array
    compares the other field, 'X', where 'Y' is equal. *)
Definition point_le (p q : Qc * Qc) : bool := lexle [snd p; fst p] [snd q; fst q].
Definition split_edges (xs ys : list Qc) : list (Qc * Qc) * list (Qc * Qc) :=
  let n := Nat.div (length xs) 2 in
  let pts := combine xs ys in
  (isort point_le (firstn n pts), isort point_le (firstn n (rev pts))).
(** angle.py:192-210 [read_interface_file]. *)
Definition read_interface_file (file : option bytes) : res (list (Qc * Qc) * list (Qc * Qc)) :=
  do (xs, ys) <- read_columns file; Ok (split_edges xs ys).

(** angle.py:213-225: the difference between the lowest point and the point nearest to the height above it; its sign along x is changed
    for the right edge.  [edge[l][0]] of no points raises IndexError. *)
Definition secant (edge : list (Qc * Qc)) (right : bool) (height : Qc) : res (Qc * Qc) :=
  match edge with
  | [] => Err IndexErr
  | (x0, y0) :: _ =>
    do k <- of_option ValueErr (argmin (map (fun p => qabs (snd p - y0 - height)) edge));
    let (x1, y1) := nth k edge (0, 0) in
    let dx := x1 - x0 in let dy := y1 - y0 in
    Ok (if right then - dx else dx, dy)
  end.
(** angle.py:227: not a number ([None]) if both are 0. *)
Definition vector_angle (d : Qc * Qc) : option R :=
  let (dx, dy) := d in
  if (qeq dx 0 && qeq dy 0)%bool then None
  else Some (degrees (acos (QR dx / sqrt (QR dx * QR dx + QR dy * QR dy)))%R).
(** angle.py:213-227 [measure_angle]. *)
Definition measure_angle (edge : list (Qc * Qc)) (right : bool) (height : Qc) : res (option R) := rmap vector_angle (secant edge right height).

(** angle.py:231-232: chord and height. *)
Definition segment (left right : list (Qc * Qc)) : res (Qc * Qc) :=
  match left, right with
  | (xl, _) :: _, (xr, _) :: _ =>
    do a <- of_option ValueErr (list_max (map snd left)); do b <- of_option ValueErr (list_max (map snd right));
    Ok (xr - xl, qmean [a; b])
  | _, _ => Err IndexErr
  end.
(** angle.py:234: a chord of 0 gives an infinite ratio with the sign of the height (numpy division), or no number. *)
Definition segment_angle (s : Qc * Qc) : option R :=
  let (chord, height) := s in
  if qeq chord 0 then
    if qlt 0 height then Some (2 * degrees (PI / 2))%R
    else if qlt height 0 then Some (2 * degrees (- (PI / 2)))%R else None
  else Some (2 * degrees (atan (2 * QR height / QR chord)))%R.
(** angle.py:230-234 [fit_angle_from_segment]. *)
Definition fit_angle_from_segment (left right : list (Qc * Qc)) : res (option R) := rmap segment_angle (segment left right).

(** [np.mean([left, right])]. *)
Definition mean2 (a b : option R) : option R :=
  match a, b with Some a, Some b => Some ((a + b) / 2)%R | _, _ => None end.
(** angle.py:64-69: the lists of angles. *)
Record found := mkFound { fit : list (option R); measured : list (option R); left : list (option R); right : list (option R) }.
Definition none_found : found := mkFound [] [] [] [].
(** angle.py:71-82: one file. *)
Definition angle_step (want : bool) (height : option Qc) (c : found) (file : option bytes) : res found :=
  do (l, r) <- read_interface_file file;
  do fits <- (if want then do a <- fit_angle_from_segment l r; Ok (fit c ++ [a]) else Ok (fit c));
  match height with
  | None => Ok (mkFound fits (measured c) (left c) (right c))
  | Some h => do a <- measure_angle l false h; do b <- measure_angle r true h;
              Ok (mkFound fits (measured c ++ [mean2 a b]) (left c ++ [a]) (right c ++ [b]))
  end.
Fixpoint angle_loop (want : bool) (height : option Qc) (c : found) (files : list (option bytes)) : res found :=
  match files with
  | [] => Ok c
  | f :: files => do c <- angle_step want height c f; angle_loop want height c files
  end.
(** angle.py:87-92. *)
Definition times_of (want : bool) (height : option Qc) (dt : Qc) (c : found) : list Qc :=
  let upto l := map (fun i => NQ i * dt) (seq 0 (@length (option R) l)) in
  match height with Some _ => upto (measured c) | None => if want then upto (fit c) else [] end.
(** angle.py:8-106 [interface_contact_angle]; the progress bar and the figure are not modelled. *)
Definition interface_contact_angle (ffuel : nat) (d : disk) (base : string) (want : bool) (height : option Qc) (dt : Qc) (fo : fopts) : res (list Qc * found) :=
  do (names, _) <- Utils.find_datamap_singles ffuel (fun s => Utils.exists_path d (Formats.os_path s)) base (Utils.dflt 1%Z (Utils.o_begin fo)) (Utils.dflt Utils.Inf (Utils.o_end fo))
      (Utils.dflt ".xvg"%string (Utils.o_ext fo));
  do c <- angle_loop want height none_found (map (Average.content d) names);
  Ok (times_of want height dt c, c).

(** angle.py:173-185: the columns of the table which is written and their legend (the numbers are formatted with '%.3f'; not modelled for
    real numbers).  [np.array(...).T] of lists of equal lengths. *)
Definition table_columns (times : list Qc) (c : found) : list (list (option R)) :=
  map (fun t => Some (QR t)) times ::
  (match measured c with [] => [] | _ => [measured c; left c; right c] end) ++ (match fit c with [] => [] | _ => [fit c] end).
Definition table_legend (c : found) : string :=
  ("# t (ps)" ++ (match measured c with [] => "" | _ => " Mean (deg.) Left (deg.) Right (deg.)" end) ++ (match fit c with [] => "" | _ => " Fit (deg.)" end))%string.
