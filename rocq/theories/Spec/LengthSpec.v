(** Specification of the length of a path of straight segments. *)
From Coq Require Import Reals List.
Import ListNotations.
Local Open Scope R_scope.

Definition dist (p q : R * R) : R := sqrt ((fst q - fst p) * (fst q - fst p) + (snd q - snd p) * (snd q - snd p)).
Fixpoint path_length (l : list (R * R)) : R := match l with p :: ((q :: _) as l') => dist p q + path_length l' | _ => 0 end.
