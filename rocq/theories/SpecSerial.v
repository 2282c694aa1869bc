(** Specification: reading a file from its first byte to its last, without jumping.

    ISO 32000-1, 7.5 gives the order of the parts: the header, the body (indirect objects one after the
    other), the cross-reference section and the trailer.  A program that repairs a damaged file, or one
    that reads from a pipe, goes through them in that order and does not use the numbers in the
    cross-reference section.  Only the lexer and the object parser are used here. *)

From Coq Require Import ZArith List Bool.
From Verif Require Import Bytes SpecLex SpecObj SpecFile.
Import ListNotations.
Local Open Scope Z_scope.

(** 7.5.2: the first line is %PDF- and a version number. *)
Definition header_line (s : bytes) : option (Z * Z * bytes) :=
  match strip (lit "%PDF-") s with
  | Some (a :: x2e :: b :: r) =>
      match is_digit a && is_digit b, eol r with
      | true, Some r => Some (digits_val [a], digits_val [b], r)
      | _, _ => None
      end
  | _ => None
  end.

(** The indirect objects that follow, each with the position of its first byte in a file of [size] bytes,
    up to one of the keywords [xref] and [startxref].  White space and comments are skipped. *)
Fixpoint scan (fuel : nat) (size : Z) (s : bytes) : option (list (Z * indirect) * bytes) :=
  match strip (lit "xref") (blanks s), strip (lit "startxref") (blanks s) with
  | None, None =>
      match fuel with
      | O => None
      | S f =>
          match parse_indirect (blanks s) with
          | Some (i, r) =>
              match scan f size r with
              | Some (l, e) => Some ((size - blen (blanks s), i) :: l, e)
              | None => None
              end
          | None => None
          end
      end
  | _, _ => Some ([], blanks s)
  end.

(** 7.5.4: a cross-reference table with its trailer dictionary; what follows the keyword [startxref]. *)
Definition table_then (s : bytes) : option (xref_section * bytes) :=
  match strip (lit "xref") s with
  | Some r1 =>
      match eol r1 with
      | Some r2 =>
          match subsections (List.length r2) r2 with
          | Some (l, r3) =>
              match objects (S (List.length r3)) [] r3 with
              | Some ([VDict d], Some (TKeyword k), r4) =>
                  if bytes_eqb k (lit "startxref") then Some ((l, d), r4) else None
              | _ => None
              end
          | None => None
          end
      | None => None
      end
  | None => None
  end.

(** 7.5.5: after the keyword, a number on a line of its own, and %%EOF at the very end. *)
Definition last_lines (s : bytes) : option Z :=
  match eol s with
  | Some r1 =>
      match digits_at r1 with
      | Some (n, r2) =>
          match eol r2 with
          | Some r3 => if bytes_eqb r3 (lit "%%EOF") then Some n else None
          | None => None
          end
      | None => None
      end
  | None => None
  end.

(** What was met on the way. *)
Record serial := mkSerial {
  se_version : Z * Z;
  se_objects : list (Z * indirect);            (** with their positions *)
  se_section : option (Z * xref_section);      (** a table, with its position *)
  se_start : Z                                 (** the number in the last but one line *)
}.

Definition read_serial (file : bytes) : option serial :=
  match header_line file with
  | Some (a, b, r) =>
      match scan (List.length r) (blen file) r with
      | Some (l, s) =>
          match strip (lit "startxref") s with
          | Some r => option_map (mkSerial (a, b) l None) (last_lines r)
          | None =>
              match table_then s with
              | Some (t, r) => option_map (mkSerial (a, b) l (Some (blen file - blen s, t))) (last_lines r)
              | None => None
              end
          end
      | None => None
      end
  | None => None
  end.

(** The object with a number (and generation 0) among those met. *)
Fixpoint met (id : Z) (l : list (Z * indirect)) : option (Z * indirect) :=
  match l with
  | [] => None
  | x :: r => if (fst (indirect_id (snd x)) =? id) && (snd (indirect_id (snd x)) =? 0) then Some x else met id r
  end.

(** No end of line among the four bytes of the comment in the second line. *)
Definition one_line (m : byte * byte * byte * byte) : bool :=
  let '(a, b, c, d) := m in forallb (fun x => negb (bmem x [x0a; x0d])) [a; b; c; d].
