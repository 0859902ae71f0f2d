(** Model of /repo/droplets/contact_line.py and of the contact angle of /repo/droplets/interface.py.
    coord_labels is the default ('X', 'Y'); [V] is the field named by [label]. *)
From Verif.Base Require Import QcX Res Np.
From Verif.Model Require Import Bins Flow Interface.
Local Open Scope list_scope.

Section ContactLine.
Variable V : bin -> Qc.
Variable data : list bin.

(** contact_line.py:104-105: [x] and [y] of an index. *)
Definition cx (i : nat) : Qc := bX (nth i data bin0).
Definition cy (i : nat) : Qc := bY (nth i data bin0).

(** contact_line.py:47-70 [get_interface_of_height]: the pairs of indices (the axes are swapped below).
    The generator is consumed only to the first layer above the height; its errors in higher layers
    do not occur: none is possible after the first layer. *)
Fixpoint up_to (ymax : Qc) (pairs : list (nat * nat)) : list (nat * nat) :=
  match pairs with
  | [] => []
  | p :: pairs => if qlt ymax (cy (fst p)) then [] else p :: up_to ymax pairs
  end.
Definition interface_of_height (pairs : list (nat * nat)) (height : Qc) : list (nat * nat) :=
  match pairs with
  | [] => []
  | p :: rest => p :: up_to (cy (fst p) + height) rest
  end.

(** contact_line.py:78-84: the index at which to place the box. *)
Fixpoint place (limit : Qc) (i : nat) (rest : list nat) : nat :=
  match rest with
  | [] => i
  | j :: rest => if qle (cy j) limit then place limit (S i) rest else i
  end.

(** contact_line.py:72-101 [get_cells_of_edge]; [inner] is dx for the left edge, -dx for the right. *)
Definition cells_of_edge (inds : list nat) (inner extract_height : Qc) : list bin :=
  match inds with
  | [] => []
  | i0 :: rest =>
    let i := nth (place (cy i0 + extract_height) 0 rest) inds 0%nat in
    let xinner := cx i + inner in
    let xs := map cx inds in
    match list_min xs, list_max xs with
    | Some lo, Some hi =>
      let xmin := qmin lo xinner in let xmax := qmax hi xinner in
      let ymin := cy i0 in let ymax := cy (last inds 0%nat) in
      filter (fun b => (qle xmin (bX b) && qle (bX b) xmax && qle ymin (bY b) && qle (bY b) ymax)%bool) data
    | _, _ => []
    end
  end.

(** contact_line.py:6-115 [get_contact_line_cells]. *)
Definition get_contact_line_cells (fi : finfo) (o : iopts) (area : Qc * Qc) (extract_height : Qc) : res (list bin * list bin) :=
  do pairs <- get_interface V data fi o;
  let inds := interface_of_height pairs (snd area) in
  Ok (cells_of_edge (map fst inds) (fst area) extract_height, cells_of_edge (map snd inds) (- fst area) extract_height).

(** interface.py:53-55 [get_floor_height]; the argmin of no values raises ValueError. *)
Definition floor_height (floor : option Qc) : res (option Qc) :=
  match floor with
  | None => Ok None
  | Some f => do k <- of_option ValueErr (argmin (map (fun b => qabs (bY b - f)) data)); Ok (Some (cy k))
  end.
(** interface.py:86-95: the loop over the further layers; the result are the arguments of [arctan2]:
    (dy, x difference on the left, on the right). *)
Fixpoint angle_loop (ymin xl xr height : Qc) (pairs : list (nat * nat)) (acc : option (Qc * Qc * Qc)) : option (Qc * Qc * Qc) :=
  match pairs with
  | [] => acc
  | (l, r) :: pairs =>
    let dy := cy l - ymin in
    if qle dy height then angle_loop ymin xl xr height pairs (Some (dy, cx l - xl, - (cx r - xr))) else acc
  end.
(** interface.py:11-95 [get_contact_angle] before [np.degrees(np.arctan2(.))]; [Ok None] is (None, None).
    Without a further layer in the height the variable [angles] is not bound. *)
Definition contact_triangle (fi : finfo) (o : iopts) (height : Qc) (floor : option Qc) : res (option (Qc * Qc * Qc)) :=
  do yfloor <- floor_height floor;
  do pairs <- get_interface V data fi (mkIopts (cutoff_opt o) (radius_opt o) (bins_opt o) (longest_opt o) (yfloor, None));
  match pairs with
  | [] => Err StopIter
  | (l, r) :: rest =>
    let ymin := cy l in
    if match yfloor with Some f => negb (qeq ymin f) | None => false end then Ok None
    else do a <- of_option UnboundErr (angle_loop ymin (cx l) (cx r) height rest None); Ok (Some a)
  end.
End ContactLine.

(** contact_line.py:118-166 [adjust_cell_coordinates]. *)
Inductive side := SLeft | SRight | SOther.
Definition edge_x (d : side) (xs : list Qc) : res (option Qc) :=
  match d with SRight => Ok (list_min (unique xs)) | SLeft => Ok (list_max (unique xs)) | SOther => Err KeyErr end.
Definition adjust_cell_coordinates (cells : list bin) (d : side) : res ((Qc * Qc) * list bin) :=
  do x0 <- edge_x d (map bX cells);
  let adj := match x0, list_min (map bY cells) with Some x, Some y => (x, y) | _, _ => (0, 0) end in
  Ok (adj, map (fun b => mkBin (bX b - fst adj) (bY b - snd adj) (bN b) (bT b) (bM b) (bU b) (bV b)) cells).
