(** Model of /repo/strata/view_flowmap.py: the runs over files.  What the drawing library is asked to do is [Figure.call]; whether it fails is an
    argument.  A saved figure is not put on the modelled disk. *)
From Coq Require Import String Ascii Reals.
From Verif.Base Require Import QcX QcR Res Np Bytes.
From Verif.Model Require Import Click Figure Bins ViewFlow ViewFlowR.
From Verif.Model Require Utils Flow Sample Average InterfaceFiles Cli.
Import Utils(disk).
Local Open Scope string_scope.
Local Open Scope list_scope.
Local Notation length := List.length.

(** A field of a map by its name. *)
Definition field_of (l : string) : option (bin -> Qc) :=
  if l =? "X" then Some bX else if l =? "Y" then Some bY else if l =? "U" then Some bU else if l =? "V" then Some bV
  else if l =? "M" then Some bM else if l =? "N" then Some bN else if l =? "T" then Some bT else None.
Definition ones (data : list bin) : list (bin * R) := map (fun b => (b, 1%R)) data.
(** The values of a derived field, added to the records (view_flowmap.py:348-464); adding dissipation, gradients and evaporation sorts the records.  [None]: the name is not that of a
    derived field.  The dissipation of bins without mass is NaN in the code and has no meaning here. *)
Definition visc_data (data : list bin) (fi : Flow.finfo) : res (list (bin * R)) :=
  let (s, r) := Sample.sample_viscous_dissipation data fi (Q2Qc (877 # 1000000)) bM in do v <- r; Ok (combine s (map QR v)).
Definition flow_data (data : list bin) : list (bin * R) := map (fun b => (b, absolute_flow b)) data.
Definition evaporation_data (data : list bin) (fi : Flow.finfo) : res (list (bin * R)) :=
  do e <- add_evaporation data fi; Ok (map (fun p => (fst p, QR (snd p))) e).
(** view_flowmap.py:53-62 and 198-203: the records with their colours. *)
Definition colour_data (data : list bin) (fi : Flow.finfo) (colour : option string) : res (list (bin * R)) :=
  match colour with
  | None => Ok (ones data)
  | Some c =>
    if c =? "flow" then Ok (flow_data data)
    else if c =? "visc" then visc_data data fi
    else if c =? "radial" then do com <- Sample.sample_center_of_mass data; Ok (map (fun b => (b, radial_flow (fst com) (snd com) b)) data)
    else if c =? "evaporation" then evaporation_data data fi
    else Ok (match field_of c with Some f => map (fun b => (b, QR (f b))) data | None => ones data end)
  end.
(** view_flowmap.py:147-205 [get_quiver_data], with the default labels; an arrow is a record with its colour.  The cutoff label is a field of the file or None. *)
Definition arrows (data : list (bin * R)) (clabel : option string) (cutoff : option Qc) (xlim ylim : option Qc * option Qc) : res (list (bin * R)) :=
  let bs := map fst data in
  let inds := and_masks (map (fun b => negb (qeq (bU b) 0)) bs) (map (fun b => negb (qeq (bV b) 0)) bs) in
  do cx <- cut_system (map bX bs) xlim; do cy <- cut_system (map bY bs) ylim;
  let inds := and_masks (and_masks inds cx) cy in
  do inds <- match clabel with
             | None => Ok inds
             | Some l => do f <- of_option ValueErr (field_of l); do cc <- cut_system (map f bs) (cutoff, None); Ok (and_masks inds cc)
             end;
  Ok (masked inds data).
(** A decorated function (utils.py:344-405) whose preparations, up to the size of the figure, may fail before the library is asked to draw.  [content]: what is drawn. *)
Definition decorated {A} (lib : A -> list call -> call -> option exn) (kw : kwargs) (content : kwargs -> res A) : option A * list call * option exn :=
  let inner := snd (pop_figure_kwargs kw) in
  match content inner with
  | Err e => (None, [Draw inner], Some e)
  | Ok a => let (calls, x) := graph (lib a) kw in (Some a, calls, x)
  end.
Definition pair_of (k : string) (kw : kwargs) : res (option Qc * option Qc) := Cli.as_lim (get_or k (VTuple [VNone; VNone]) kw).
Definition set_default (k : string) (v : val) (kw : kwargs) : kwargs := if has k kw then kw else set k v kw.

(** view_flowmap.py:81-129 [get_streamline_data], up to the arrangement of the bins in the box as a grid (117), which fails unless their number is that of its points.  Bins below the cutoff are
    masked, but stay in the grid; a limit of 0 counts as none (100-103).  If no bin is left unmasked, numpy calculates with masked values, which is not modelled. *)
Definition nonzero (v : option Qc) : option Qc := match v with Some q => if qeq q 0 then None else Some q | None => None end.
Definition extent (f : bin -> Qc) (l : list bin) : res (Qc * Qc) := match list_min (map f l), list_max (map f l) with Some a, Some b => Ok (a, b) | _, _ => Err RuntimeErr end.
Definition limited (e : Qc * Qc) (lim : option Qc * option Qc) : Qc * Qc :=
  (match nonzero (fst lim) with Some v => qmax (fst e) v | None => fst e end, match nonzero (snd lim) with Some v => qmin (snd e) v | None => snd e end).
Definition streamline_data (data : list bin) (fi : Flow.finfo) (f : bin -> Qc) (cutoff : Qc) (xlim ylim : option Qc * option Qc) : res (list bin * (Z * Z)) :=
  do (dx, dy) <- of_option TypeErr (Flow.f_spacing fi);
  let shown := filter (fun b => qle cutoff (f b)) in
  do ex <- extent bX (shown data); do ey <- extent bY (shown data);
  let '(x0, x1) := limited ex xlim in let '(y0, y1) := limited ey ylim in
  let box := filter (fun b => (qle x0 (bX b) && qle (bX b) x1 && qle y0 (bY b) && qle (bY b) y1)%bool) data in
  do ex <- extent bX (shown box); do ey <- extent bY (shown box);
  let shape := streamline_shape (fst ex) (snd ex) (fst ey) (snd ey) dx dy in
  if Z.eqb (fst shape * snd shape) (Z.of_nat (length box)) then Ok (box, shape) else Err ValueErr.
(** Whether stream lines end the loop without a figure: only errors are modelled. *)
Definition streamlines_end (data : list (bin * R)) (fi : Flow.finfo) (clabel : option string) (cutoff : option Qc) (kw : kwargs) : option exn :=
  match cutoff, clabel with
  | Some c, Some l =>
    match (do xlim <- pair_of "xlim" kw; do ylim <- pair_of "ylim" kw; do f <- of_option ValueErr (field_of l); streamline_data (map fst data) fi f c xlim ylim) with
    | Ok _ | Err RuntimeErr => Some RuntimeErr
    | Err _ => None
    end
  | _, _ => None
  end.

(** view_flowmap.py:10-79 [view_flowfields], the loop: the figures, with the last one also if it failed, and the exception.  Exceptions
    while a figure is prepared or drawn are printed and end the loop (75-78); those of reading and of derived fields are not caught.
    Stream lines: without a cutoff [None] cannot be compared (94), which is caught, too; [RuntimeErr] stands for what is not modelled. *)
Definition figure (A : Type) := (option A * list call)%type.
Fixpoint flow_loop (lib : list (bin * R) -> list call -> call -> option exn) (fuel : nat) (d : disk) (clabel : option string) (cutoff : option Qc) (colour : option string) (streamlines : bool)
    (kw : kwargs) (files : list string) : list (figure (list (bin * R))) * option exn :=
  match files with
  | [] => ([], None)
  | fn :: files =>
    match (do (b, fi) <- InterfaceFiles.flow_file fuel (Average.content d fn); do v <- colour_data b fi colour; Ok (v, fi)) with
    | Err e => ([], Some e)
    | Ok (data, fi) =>
      if streamlines then ([], streamlines_end data fi clabel cutoff kw) else
      match (do xlim <- pair_of "xlim" kw; do ylim <- pair_of "ylim" kw; arrows data clabel cutoff xlim ylim) with
      | Err _ => ([], None)
      | Ok l =>
        let '(a, calls, x) := decorated lib kw (fun inner => do _ <- create_figure inner; Ok l) in
        match x with
        | Some _ => ([(a, calls)], None)
        | None => let r := flow_loop lib fuel d clabel cutoff colour streamlines kw files in ((a, calls) :: fst r, snd r)
        end
      end
    end
  end.
Definition view_flowfields (lib : list (bin * R) -> list call -> call -> option exn) (fuel : nat) (d : disk) (clabel : option string) (cutoff : option Qc) (colour : option string) (streamlines : bool)
    (kw : kwargs) (files : list string) := flow_loop lib fuel d clabel cutoff colour streamlines (set_default "axis" (VText "scaled") kw) files.

(** ** Maps *)
(** view_flowmap.py:262-275: the label for this and the following files, and the records with the value of the label, [None] if there is no such field. *)
Definition gradient_data (data : list bin) (fi : Flow.finfo) (along_x : bool) : res (list (bin * R)) :=
  do g <- add_density_gradient data fi; Ok (map (fun p => (fst p, QR (if along_x then fst (snd p) else snd (snd p)))) g).
Definition map_data (data : list bin) (fi : Flow.finfo) (label : string) : res (string * (list (bin * R) + list bin)) :=
  if label =? "flow" then Ok (label, inl (flow_data data))
  else if label =? "visc_diss" then do v <- visc_data data fi; Ok ("visc", inl v)
  else if label =? "evaporation" then do v <- evaporation_data data fi; Ok (label, inl v)
  else if label =? "grad_rho_x" then do v <- gradient_data data fi true; Ok (label, inl v)
  else if label =? "grad_rho_y" then do v <- gradient_data data fi false; Ok (label, inl v)
  else Ok (label, match field_of label with Some f => inl (map (fun b => (b, QR (f b))) data) | None => inr data end).
(** view_flowmap.py:277-278 with flow.py:172-217 [lims]: KeyError for unknown labels.  The cutoff label may be that of the derived field which is drawn (the other derived gradient is not modelled). *)
Definition at_least (c : Qc) (v : R) : bool := if Rle_dec (QR c) v then true else false.
Definition cut_map (clabel : option string) (cutoff : option Qc) (label : string) (data : list (bin * R) + list bin) : res (list (bin * R) + list bin) :=
  match cutoff, clabel with
  | Some c, Some l =>
    match field_of l, data with
    | Some f, inl v => Ok (inl (filter (fun p => qle c (f (fst p))) v))
    | Some f, inr b => Ok (inr (filter (fun b => qle c (f b)) b))
    | None, inl v => if l =? label then Ok (inl (filter (fun p => at_least c (snd p)) v)) else Err KeyErr
    | None, inr _ => Err KeyErr
    end
  | _, _ => Ok data
  end.
Definition bins_in (data : list (bin * R) + list bin) : list bin := match data with inl v => map fst v | inr b => b end.
(** view_flowmap.py:303-317 [height]: numpy.histogram2d, as [ViewFlow.hist2d] for real values. *)
Definition rsum (l : list R) : R := fold_right Rplus 0%R l.
Definition hist_of (data : list (bin * R)) (shape : Z * Z) (i j : nat) : R :=
  let rx := hist_range (map (fun p => bX (fst p)) data) in
  let ry := hist_range (map (fun p => bY (fst p)) data) in
  rsum (map snd (filter (fun p => (Z.eqb (hist_cell (fst rx) (snd rx) (Z.to_nat (fst shape)) (bX (fst p))) (Z.of_nat i) &&
                                   Z.eqb (hist_cell (fst ry) (snd ry) (Z.to_nat (snd shape)) (bY (fst p))) (Z.of_nat j))%bool) data)).
Definition required (k : string) (kw : kwargs) : res (option Qc * option Qc) := if has k kw then Cli.as_lim (get k kw) else Err KeyErr.
Definition values_in (data : list (bin * R) + list bin) : res (list (bin * R)) := match data with inl v => Ok v | inr _ => Err ValueErr end.
Definition height_content (data : list (bin * R) + list bin) (shape : Z * Z) (kw : kwargs) : res (nat -> nat -> R) :=
  do _ <- required "clim" kw; do _ <- required "vlim" kw; do _ <- create_figure kw; do v <- values_in data; Ok (hist_of v shape).
(** view_flowmap.py:320-345 [contour]: as [ViewFlow.contour_grid]. *)
Definition rclip (lim : option Qc * option Qc) (v : R) : R :=
  let v := match fst lim with Some lo => Rmax (QR lo) v | None => v end in
  match snd lim with Some hi => Rmin (QR hi) v | None => v end.
Definition contour_content (data : list (bin * R) + list bin) (shape : Z * Z) (kw : kwargs) : res (nat -> nat -> Qc * Qc * R) :=
  do vlim <- required "vlim" kw; do v <- values_in data;
  let v := match get_or "contour_levels" VNone kw with VNone => map (fun p => (fst p, rclip vlim (snd p))) v | _ => v end in
  if negb (Z.eqb (Z.of_nat (length v)) (fst shape * snd shape)) then Err ValueErr else
  do _ <- create_figure kw;
  Ok (fun i j => let p := nth (i * Z.to_nat (snd shape) + j) v (bin0, 0%R) in (bX (fst p), bY (fst p), snd p)).
Inductive content := Heights (h : nat -> nat -> R) | Contours (c : nat -> nat -> Qc * Qc * R).
(** view_flowmap.py:222-284 [view_flowmap_2d].  No exception is caught.  Coordinate labels other than X and Y are not modelled.  [print_average_value] (281) is not defined anywhere: NameError. *)
Definition map_content (type : string) (data : list (bin * R) + list bin) (shape : Z * Z) (kw : kwargs) : res content :=
  if type =? "height" then do h <- height_content data shape kw; Ok (Heights h) else do c <- contour_content data shape kw; Ok (Contours c).
Definition shape_of (fi : Flow.finfo) : Z * Z := match Flow.f_shape fi with Some s => s | None => (0, 0)%Z end.
Fixpoint map_loop (lib : content -> list call -> call -> option exn) (fuel : nat) (d : disk) (type label : string) (clabel : option string) (cutoff : option Qc)
    (kw : kwargs) (files : list string) : list (figure content) * option exn :=
  match files with
  | [] => ([], None)
  | fn :: files =>
    match (do (b, fi) <- InterfaceFiles.flow_file fuel (Average.content d fn); do (l, v) <- map_data b fi label; do v <- cut_map clabel cutoff l v;
           if Cli.truthy (get_or "average_value" (VBool false) kw) then Err NameErr else Ok (l, v, shape_of fi)) with
    | Err e => ([], Some e)
    | Ok (l, v, shape) =>
      let '(a, calls, x) := decorated lib kw (map_content type v shape) in
      match x with
      | Some e => ([(a, calls)], Some e)
      | None => let r := map_loop lib fuel d type l clabel cutoff kw files in ((a, calls) :: fst r, snd r)
      end
    end
  end.
Definition view_flowmap_2d (lib : content -> list call -> call -> option exn) (fuel : nat) (d : disk) (type label : string) (clabel : option string) (cutoff : option Qc)
    (kw : kwargs) (files : list string) : list (figure content) * option exn :=
  if existsb (String.eqb type) draw_types
  then map_loop lib fuel d type label clabel cutoff (set_default "coord_labels" (VTuple [VText "X"; VText "Y"]) (set_default "noaxis" (VBool true) (set_default "axis" (VText "scaled") kw))) files
  else ([], Some TypeErr).
