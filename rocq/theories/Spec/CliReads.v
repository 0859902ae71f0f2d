(** Which command lines are accepted: the texts of the values and their numbers. *)
From Coq Require Import String Ascii.
From Verif.Base Require Import QcX Np Bytes.
From Verif.Model Require Import Click.
From Verif.Spec Require Import CliSpec.
From Verif.Model Require Utils Formats.
Local Open Scope string_scope.
Local Open Scope list_scope.

(** What a text means for a type of parameter. *)
Definition reads (d : Utils.disk) (k : kind) (s : string) (v : val) : Prop :=
  match k with
  | KText => v = VText s
  | KExisting => Utils.exists_path d (Formats.os_path s) = true /\ v = VText s
  | KInt => exists z, int_text s z /\ v = VInt z
  | KRange lo => exists z, int_from lo s z /\ v = VInt z
  | KFloat => exists x, float_text s x /\ v = VNum x
  | KChoice l => In s l /\ v = VText s
  | KBool => exists b, yes_no s b /\ v = VBool b
  | KOptInt => (exists z, int_text s z /\ v = VInt z) \/ (none_text s /\ v = VNone)
  | KOptFloat => (exists x, float_text s x /\ v = VNum x) \/ (none_text s /\ v = VNone)
  | KFloats => exists ws xs, parts (txt s) (map txt ws) /\ Forall2 float_text ws xs /\ v = VTuple (map VNum xs)
  | KTexts => exists ws, parts (txt s) (map txt ws) /\ v = VTuple (map VText ws)
  end.
(** The words for the positional arguments and their values. *)
Inductive fits (d : Utils.disk) : list arg -> list string -> list val -> Prop :=
| fits_none : fits d [] [] []
| fits_one a args p v pos vs : a_many a = false -> reads d (a_kind a) p v -> fits d args pos vs -> fits d (a :: args) (p :: pos) (v :: vs)
| fits_many a pos vs : a_many a = true -> (a_required a = true -> pos <> []) -> Forall2 (reads d (a_kind a)) pos vs -> fits d [a] pos [VTuple vs].
(** The option is not given, or its values (where it is given last) can be read. *)
Definition readable (d : Utils.disk) (occs : list (string * list string)) (o : opt) : Prop :=
  not_given occs (o_flags o ++ o_offs o) \/ exists f vs, given occs (o_flags o ++ o_offs o) f vs /\ forall t, In t vs -> exists v, reads d (o_kind o) t v.
(** Help is asked for: '-h' may be the spelling of another option. *)
Definition asks_help (c : command) (occs : list (string * list string)) : Prop :=
  exists f vs, In (f, vs) occs /\ In f help /\ forall o, In o (c_opts c) -> ~ In f (o_flags o ++ o_offs o).
(** The spellings of the options of a command with the numbers of their values. *)
Definition spelling (c : command) (f : string) (n : nat) : Prop :=
  (exists o, In o (c_opts c) /\ In f (o_flags o ++ o_offs o) /\ n = o_nargs o) \/ (In f help /\ n = 0%nat /\ forall o, In o (c_opts c) -> ~ In f (o_flags o ++ o_offs o)).
Definition accepted (d : Utils.disk) (c : command) (argv : list string) : Prop :=
  exists t occs pos, (forall f n, t f = Some n <-> spelling c f n) /\ writes t argv occs pos /\ ~ asks_help c occs /\ (exists vs, fits d (c_args c) pos vs) /\
    forall o, In o (c_opts c) -> readable d occs o.
(** The value of an option: of its last occurrence, or the default. *)
Definition delivers (d : Utils.disk) (occs : list (string * list string)) (o : opt) (v : val) : Prop :=
  (not_given occs (o_flags o ++ o_offs o) /\ v = o_default o) \/
  exists f vs, given occs (o_flags o ++ o_offs o) f vs /\
    match o_nargs o with
    | 0%nat => exists b, v = VBool b /\ (b = true <-> In f (o_flags o))
    | 1%nat => exists t, vs = [t] /\ reads d (o_kind o) t v
    | _ => exists l, Forall2 (reads d (o_kind o)) vs l /\ v = VTuple l
    end.
