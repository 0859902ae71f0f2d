(** Model of /repo/strata/interface/view.py:10-102, the run over files. *)
From Coq Require Import String Ascii.
From Verif.Base Require Import QcX Res Np Bytes.
From Verif.Model Require Utils Average InterfaceView.
From Verif.Model Require Import Text Formats Table.
Import Utils(disk, fopts, exists_path, exec_ops, prepare_ops, fname, ceil_div).
Local Open Scope list_scope.
Local Notation length := List.length.

(** view.py:77-78: the files of a group are read (117-154) and averaged; whatever fails is caught (79).  Files with words which are not finite numbers
    are not modelled ([read_columns]). *)
Definition group_interface (d : disk) (names : list string) : res InterfaceView.series :=
  do l <- rmapM (fun n => read_columns (Average.content d n)) names; InterfaceView.average_interfaces l.
(** A figure: the name under which it is saved, if it is, and the curve. *)
Definition figure := (option string * InterfaceView.series)%type.
(** view.py:75-97.  [num]: the number of the next figure; [next(fnfig)] is called for every group if figures are saved, also for those which could not
    be read.  With [save_xvg] the path is prepared (collect.py:307, utils.py:239-288) and [interface['X']] of a Series of heights is a KeyError
    (collect.py:367), whose header before it has no effect.  The result: the disk, the interfaces and figures so far, and the exception. *)
Fixpoint view_loop (save_xvg : string) (save_fig : option string) (figext : string) (num : Z) (d : disk) (groups : list (list string * string))
    : disk * (list InterfaceView.series * list figure) * option exn :=
  match groups with
  | [] => (d, ([], []), None)
  | (names, out) :: groups =>
    match group_interface d names with
    | Err _ => view_loop save_xvg save_fig figext (num + 1)%Z d groups
    | Ok s =>
      if String.eqb save_xvg "" then
        let '(d', (l, figs), x) := view_loop save_xvg save_fig figext (num + 1)%Z d groups in
        (d', (s :: l, if Nat.ltb 1 (length s) then (option_map (fun b => fname b num figext) save_fig, s) :: figs else figs), x)
      else match prepare_ops d (os_path out) with Err x => (d, ([], []), Some x) | Ok ops => (exec_ops d ops, ([], []), Some KeyErr) end
    end
  end.
(** view.py:10-102 [view_interfaces]: the figures and what is returned: for every interface the x values and the heights.  The first number of the figures is
    [np.ceil(begin/average)] (52).  The progress bar and what is printed are not modelled, nor what is in the figures besides the curve;
    a saved figure is listed with its name and is not put on the modelled disk. *)
Definition view_interfaces (ffuel : nat) (d : disk) (base : string) (average : Z) (save_xvg : string) (save_fig : option string) (figext : string) (fo : fopts)
    : disk * list figure * res (list (list Qc) * list (list Qc)) :=
  let fo' := {| Utils.o_begin := Utils.o_begin fo; Utils.o_end := Utils.o_end fo; Utils.o_ext := Some (Utils.dflt ".xvg"%string (Utils.o_ext fo)); Utils.o_outext := Utils.o_outext fo |} in
  match Utils.find_groups_to_singles ffuel (fun s => exists_path d (os_path s)) base save_xvg average false fo' with
  | Err x => (d, [], Err x)
  | Ok groups =>
    let '(d', (l, figs), x) := view_loop save_xvg save_fig figext (ceil_div (Utils.f_begin (Utils.pop_fileopts fo')) average) d groups in
    (d', figs, match x with Some x => Err x | None => Ok (map (map snd) l, map (map fst) l) end)
  end.

(** view.py:188-227 [combine_interfaces], [all_coords_to_edges]: the left and right halves of every interface as Series, and the frames of them: a row for every
    height of any interface, [None] where an interface has no such height.  As in [average_edge] the heights are in order, and repeated heights
    cannot be aligned. *)
Definition all_coords_to_edges (l : list (list Qc * list Qc)) : res (list InterfaceView.series * list InterfaceView.series) :=
  do edges <- rmapM InterfaceView.get_boundary_sides l; Ok (map fst edges, map snd edges).
Definition frame := (list (Qc * list (option Qc)))%type.
Definition frame_of (l : list InterfaceView.series) : res frame :=
  if forallb (fun s => InterfaceView.nodupb (map fst s)) l then
    Ok (map (fun y => (y, map (InterfaceView.lookup y) l)) (unique (concat (map (map fst) l))))
  else Err ValueErr.
Definition combine_interfaces (l : list (list Qc * list Qc)) : res (frame * frame) :=
  do lr <- all_coords_to_edges l; do a <- frame_of (fst lr); do b <- frame_of (snd lr); Ok (a, b).
