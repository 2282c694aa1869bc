(** Specification: what is left of a file of which only the first bytes were stored.

    A disk that is full, a connection that breaks and a process that is killed leave the beginning of a file.
    The cross-reference section is at the end of a PDF file and is lost first; what a repairing reader can do is to
    go through the bytes that are there (ISO 32000-1, 7.5.3: the body is a sequence of indirect objects) and to take
    every indirect object it can read, until it meets something else.  Only the lexer and the object parser are
    used here. *)

From Coq Require Import ZArith List Bool.
From Verif Require Import Bytes SpecLex SpecObj SpecFile.
Import ListNotations.
Local Open Scope Z_scope.

(** The indirect objects at the front of [s], which is the end of [size] bytes, each with the position of its
    first byte.  White space and comments (so also the header) are skipped. *)
Fixpoint salvage (fuel : nat) (size : Z) (s : bytes) : list (Z * indirect) :=
  match fuel with
  | O => []
  | S f =>
      match parse_indirect (blanks s) with
      | Some (i, r) => (size - blen (blanks s), i) :: salvage f size r
      | None => []
      end
  end.

Definition salvaged (s : bytes) : list (Z * indirect) := salvage (List.length s) (blen s) s.

(** Where the object that begins at position [off] ends: just after its keyword [endobj].  (The size of the file
    if no object is there.) *)
Definition end_at (file : bytes) (off : Z) : Z :=
  match parse_indirect (from file off) with
  | Some (_, r) => blen file - blen r
  | None => blen file
  end.

(** What is left when only [n] bytes were stored. *)
Definition cut (n : nat) (file : bytes) : bytes := firstn n file.
