(** Specification vocabulary for maps in other units. *)
From Verif.Base Require Import QcX.
From Verif.Model Require Import Bins.
From Verif.Model Require Flow Interface Spreading.

(** New units: every length is multiplied by [u_len], and the origin is moved; the other fields have units of their own. *)
Record units := mkUnits { u_len : Qc; u_x0 : Qc; u_y0 : Qc; u_num : Qc; u_temp : Qc; u_mass : Qc; u_vel : Qc }.
Definition units_ok (u : units) : Prop := 0 < u_len u /\ 0 < u_num u /\ 0 < u_temp u /\ 0 < u_mass u /\ 0 < u_vel u.
Definition new_x (u : units) (x : Qc) : Qc := u_len u * x + u_x0 u.
Definition new_y (u : units) (y : Qc) : Qc := u_len u * y + u_y0 u.
Definition new_length (u : units) (d : Qc) : Qc := u_len u * d.
(** A bin in the new units. *)
Definition in_units (u : units) (b : bin) : bin :=
  mkBin (new_x u (bX b)) (new_y u (bY b)) (u_num u * bN b) (u_temp u * bT b) (u_mass u * bM b) (u_vel u * bU b) (u_vel u * bV b).
(** The grid information in the new units. *)
Definition info_in_units (u : units) (fi : Flow.finfo) : Flow.finfo :=
  Flow.mkFinfo (Flow.f_shape fi) (option_map (fun p => (new_x u (fst p), new_y u (snd p))) (Flow.f_origin fi))
    (option_map (fun p => (new_length u (fst p), new_length u (snd p))) (Flow.f_spacing fi)) (Flow.f_num fi).
(** The options of the interface search: the cutoff is a value, changed by [v]; the radius is a length, the limits are heights. *)
Definition options_in_units (u : units) (v : Qc -> Qc) (o : Interface.iopts) : Interface.iopts :=
  Interface.mkIopts (option_map v (Interface.cutoff_opt o)) (option_map (new_length u) (Interface.radius_opt o)) (Interface.bins_opt o) (Interface.longest_opt o)
    (option_map (new_y u) (fst (Interface.ylims_opt o)), option_map (new_y u) (snd (Interface.ylims_opt o))).
(** Frames, collected rows and written lines in a new unit of length. *)
Definition frame_in_units (s : Qc) (f : Spreading.frame) : Spreading.frame :=
  Spreading.mkFrame (Spreading.f_path f) (s * Spreading.f_box f) (option_map (fun e => (s * fst e, s * snd e)) (Spreading.f_edges f)).
Definition row_in_units (s : Qc) (r : Spreading.row) : Spreading.row :=
  Spreading.mkRow (Spreading.r_t r) (s * Spreading.r_r r) (s * Spreading.r_left r) (s * Spreading.r_right r).
Definition line_in_units (s : Qc) (l : Spreading.line) : Spreading.line :=
  match l with Spreading.LRow t r a b => Spreading.LRow t (s * r) (s * a) (s * b) | _ => l end.
