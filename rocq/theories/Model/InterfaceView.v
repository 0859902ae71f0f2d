(** Model of /repo/strata/interface/view.py: averaging of interfaces. *)
From Verif.Base Require Import QcX Res Np Sort.
Local Open Scope list_scope.

(** A pandas Series: values with their index (here the height), in order. *)
Definition series := list (Qc * Qc). (* index, value *)
Definition lookup (y : Qc) (s : series) : option Qc := option_map snd (find (fun p => qeq (fst p) y) s).
Fixpoint nodupb (l : list Qc) : bool :=
  match l with [] => true | x :: l => (negb (existsb (qeq x) l) && nodupb l)%bool end.

(** view.py:169-174 [get_boundary_sides]; different lengths of values and index raise ValueError. *)
Definition get_boundary_sides (i : list Qc * list Qc) : res (series * series) :=
  let '(xs, ys) := i in
  let n := Nat.div (length xs) 2 in
  if (Nat.eqb (length (firstn n xs)) (length (firstn n ys)) && Nat.eqb (length (skipn n xs)) (length (skipn n ys)))%bool
  then Ok (combine (firstn n ys) (firstn n xs), combine (skipn n ys) (skipn n xs))
  else Err ValueErr.

(** view.py:176-180 [average_edge].  The rows of the frame are the heights of any of the interfaces,
    sorted (pandas' union of different indices; if all are the same their order is kept, which
    differs only for heights not in order); rows with a missing value are dropped, others
    replaced by the mean.  Repeated heights cannot be aligned: an exception, ValueError here. *)
Definition average_edge (l : list series) : res series :=
  if forallb (fun s => nodupb (map fst s)) l then
    let ys := unique (concat (map (map fst) l)) in
    let row y := fold_right (fun s acc => match lookup y s, acc with Some v, Some vs => Some (v :: vs) | _, _ => None end) (Some []) l in
    Ok (flat_map (fun y => match row y with Some vs => [(y, qmean vs)] | None => [] end) ys)
  else Err ValueErr.

(** view.py:230-241 [stitch_edge_series] after 157-184 [average_interfaces]: the right edge is
    sorted by decreasing height.  The result is (heights, x values). *)
Definition average_interfaces (l : list (list Qc * list Qc)) : res series :=
  do edges <- rmapM get_boundary_sides l;
  do lft <- average_edge (map fst edges);
  do rgt <- average_edge (map snd edges);
  Ok (lft ++ rev rgt).
