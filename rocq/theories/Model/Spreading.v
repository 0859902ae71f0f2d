(** Model of /repo/strata/spreading/collect.py: spreading edges, unwrapping of
    periodic boundaries and the collected radius as a function of time. *)
From Coq Require Import String.
From Verif.Base Require Import QcX Res Np Sort.
From Verif.Model Require Import Bins Flow Interface.
Local Open Scope list_scope.

(** Python's [x % b] for b > 0 (in general floored division; for b = 0 numpy
    gives nan: not modelled, all theorems about it require b > 0). *)
Definition qmod (x b : Qc) : Qc := x - ZQ (qfloor (x / b)) * b.

(** collect.py:190-192 [get_floor_height]; argmin of an empty array raises ValueError. *)
Definition get_floor_height (floor : option Qc) (ys : list Qc) : res (option Qc) :=
  match floor with
  | None => Ok None
  | Some f => do k <- of_option ValueErr (argmin (map (fun y => qabs (ZQ (qceil (y - f)) - 1)) ys));
              Ok (Some (nth k ys 0))
  end.

(** collect.py:156-211 [get_spreading_edges]; [None] stands for [(None, None)].
    The loop 201-209 takes the first yielded pair whose left cell is in the
    floor layer.  [V] is the field [label]; options as in get_interface. *)
Definition get_spreading_edges (V : bin -> Qc) (data : list bin) (fi : finfo) (cutoff radius : option Qc) (nb : Z)
    (longest : bool) (floor : option Qc) : res (option (Qc * Qc)) :=
  do yfloor <- get_floor_height floor (map bY data);
  do pairs <- get_interface V data fi (mkIopts cutoff radius nb longest (yfloor, yfloor));
  let ok p := match yfloor with None => true | Some y => qeq (bY (nth (fst p) data bin0)) y end in
  match find ok pairs with
  | None => Ok None
  | Some (l, r) => Ok (Some (bX (nth l data bin0), bX (nth r data bin0)))
  end.

(** collect.py:214-229 [PeriodicInfo]; the previous positions are [None] initially. *)
Record pinfo := mkP { prev : option (Qc * Qc); mleft : Z; mright : Z }.
Definition init_periodic_info : pinfo := mkP None 0 0.

(** collect.py:266-272. *)
Definition mult_addition (x box : Qc) : Z :=
  if qlt (qabs (box - qmod x box)) (qmod x box) then (-1)%Z else 1%Z.
(** collect.py:274-282. *)
Definition crossing_event (l r lp rp : Qc) : bool := xorb (qlt r l) (qlt rp lp).

(** collect.py:231-320. *)
Definition check_and_update (p : pinfo) (box l r : Qc) : pinfo :=
  let xleft := l + ZQ (mleft p) * box in
  let xright := r + ZQ (mright p) * box in
  match prev p with
  | None => mkP (Some (l, r)) (mleft p) (if qlt r l then mright p + 1 else mright p)%Z
  | Some (lp, rp) =>
    if crossing_event l r lp rp then
      if qlt (qabs (r - rp)) (qabs (l - lp))
      then mkP (Some (l, r)) (mleft p + mult_addition xleft box)%Z (mright p)
      else mkP (Some (l, r)) (mleft p) (mright p + mult_addition xright box)%Z
    else mkP (Some (l, r)) (mleft p) (mright p)
  end.

(** collect.py:322-328. *)
Definition add_multipliers (p : pinfo) (box l r : Qc) : Qc * Qc :=
  (l + ZQ (mleft p) * box, r + ZQ (mright p) * box).

(** One frame as seen by the loop 113-145: the path of its file, the size of
    the box along x and the result of get_spreading_edges. *)
Record frame := mkFrame { f_path : string; f_box : Qc; f_edges : option (Qc * Qc) }.

(** Lines of the output file (332-396); header text and number formats
    ('%.3f') are not modelled. *)
Inductive line :=
| LHeader                                  (* 332-370 *)
| LImpact (time : Qc) (path : string)      (* 373-388 *)
| LRow (time radius left right : Qc).      (* 391-396 *)

(** One collected row: time, radius and absolute edges (the latter only go to the file). *)
Record row := mkRow { r_t : Qc; r_r : Qc; r_left : Qc; r_right : Qc }.

(** collect.py:113-145; [impact] is the static variable [write_spreading.impact], which lives as long as the process. *)
Fixpoint collect_loop (frames : list frame) (i : nat) (dt time : Qc) (p : pinfo) (save impact : bool)
  : list row * list line * bool :=
  match frames with
  | [] => ([], [], impact)
  | f :: rest =>
    match f_edges f with
    | None => collect_loop rest (S i) dt time p save impact
    | Some (l, r) =>
      let p' := check_and_update p (f_box f) l r in
      let '(la, ra) := add_multipliers p' (f_box f) l r in
      let radius := qabs (Q2Qc (1 # 2) * (ra - la)) in
      let out := if save then (if impact then [] else [LImpact (NQ i * dt) (f_path f)]) ++ [LRow time radius la ra]
                 else [] in
      let '(rows, lines, impact') := collect_loop rest (S i) dt (time + dt) p' save (impact || save)%bool in
      (mkRow time radius la ra :: rows, out ++ lines, impact')
    end
  end.

(** collect.py:19-153: rows (of which time and radius are returned), lines in
    the output file, and the static variable afterwards. *)
Definition collect (frames : list frame) (dt t0 : Qc) (save impact : bool) : list row * list line * bool :=
  let '(rows, lines, impact') := collect_loop frames 0 dt t0 init_periodic_info save impact in
  (rows, (if save then [LHeader] else []) ++ lines, impact').
