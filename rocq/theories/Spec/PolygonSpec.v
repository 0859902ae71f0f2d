(** Specification of polygons: area by the shoelace formula. *)
From Verif.Base Require Import QcX.

Definition cross (p q : Qc * Qc) : Qc := fst p * snd q - fst q * snd p.
Fixpoint path_sum (l : list (Qc * Qc)) : Qc :=
  match l with p :: ((q :: _) as l') => cross p q + path_sum l' | _ => 0 end.
(** Twice the signed area of the polygon with these corners (positive if counterclockwise). *)
Definition twice_area (l : list (Qc * Qc)) : Qc := path_sum l + cross (last l (0, 0)) (hd (0, 0) l).

(** The layers of an interface from below: height, left and right position; its polygon goes up
    the left edge and down the right one, which is clockwise. *)
Definition layers := list (Qc * Qc * Qc).
Definition height (p : Qc * Qc * Qc) : Qc := fst (fst p).
Definition left (p : Qc * Qc * Qc) : Qc := snd (fst p).
Definition right (p : Qc * Qc * Qc) : Qc := snd p.
Definition polygon (ls : layers) : list (Qc * Qc) :=
  map (fun p => (left p, height p)) ls ++ rev (map (fun p => (right p, height p)) ls).
Fixpoint rising (ls : layers) : Prop :=
  match ls with p :: ((q :: _) as ls') => height p <= height q /\ rising ls' | _ => True end.
