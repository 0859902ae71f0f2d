(** Model of reading several files: /repo/strata/dataformats/read.py:40-54 [read_from_files].
    [contents] gives for each name the bytes of the file, None if it cannot be read; the result of the
    generator is what it yields and the exception which ends it, if any. *)
From Coq Require Import String.
From Verif.Base Require Import QcX Res Np Bytes.
From Verif.Model Require Import Utils Text Gmx Simple Formats.
Local Open Scope list_scope.
Fixpoint read_from_files (fuel : nat) (contents : string -> option bytes) (names : list string) : list (dict (list ext) * minfo) * option exn :=
  match names with
  | [] => ([], None)
  | n :: names =>
    match read_data_file fuel (contents n) with
    | Ok r => let rest := read_from_files fuel contents names in (r :: fst rest, snd rest)
    | Err e => ([], Some e)
    end
  end.
