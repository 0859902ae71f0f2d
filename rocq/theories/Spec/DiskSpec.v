(** What a user sees of a disk: the stored contents, and the newest content
    written to a path. *)
From Coq Require Import List String.
From Verif.Model Require Import Utils.
Import ListNotations.

Definition keys (d : disk) := map fst (files d).
(** A disk holds one content for each path. *)
Definition wf (d : disk) : Prop := NoDup (keys d).
(** All contents on the disk, under whatever name. *)
Definition contents (d : disk) : list string := map snd (files d).
(** The complete text written by a call. *)
Definition text_of (c : call) : string := String.concat "" (snd c).

(** Newest content of a path after a list of calls, given its initial content. *)
Fixpoint newest (p : path) (cs : list call) (init : option string) : option string :=
  match cs with
  | [] => init
  | c :: cs => newest p cs (if path_eqb p (fst c) then Some (text_of c) else init)
  end.
