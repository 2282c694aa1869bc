(** Specification: what the archival standard asks of the syntax of a file (ISO 19005-1, -2 and -3, clause 6.1).

    These rules are stricter than those of ISO 32000 and are about the bytes of a file, not only about what they mean.  Only the lexer and
    the object parser are used here. *)

From Coq Require Import ZArith List Bool.
From Verif Require Import Bytes SpecLex SpecObj SpecFile.
Import ListNotations.
Local Open Scope Z_scope.

(** An end-of-line marker. *)
Inductive line_end : bytes -> Prop := cr_lf : line_end [x0d; x0a] | only_lf : line_end [x0a] | only_cr : line_end [x0d].
Definition after_line_end (before : bytes) : Prop := exists s e, before = s ++ e /\ line_end e.
Definition before_line_end (after : bytes) : Prop := exists e s, after = e ++ s /\ line_end e.

(** 6.1.2: at the beginning of the file the header, [%PDF-] and the version, and an end-of-line marker; immediately after it a comment with at
    least four bytes above 127. *)
Definition archival_header (file : bytes) (major minor : Z) : Prop :=
  exists e comment rest,
    file = lit "%PDF-" ++ [zb (48 + major)] ++ lit "." ++ [zb (48 + minor)] ++ e ++ lit "%" ++ comment ++ rest /\
    line_end e /\ (4 <= List.length comment)%nat /\ Forall (fun b => 127 < bz b) comment /\ before_line_end rest.

(** 6.1.3: nothing follows the last end-of-file marker but an optional end-of-line marker. *)
Definition archival_end (file : bytes) : Prop := exists s e, file = s ++ lit "%%EOF" ++ e /\ (e = [] \/ line_end e).

(** 6.1.4: [xref] and the header of a subsection are separated by one end-of-line marker, and in the header the first number and the
    count by one space. *)
Definition archival_table (file : bytes) (start : Z) : Prop :=
  exists e1 first count e2 rest,
    from file start = lit "xref" ++ e1 ++ first ++ [x20] ++ count ++ e2 ++ rest /\ line_end e1 /\ line_end e2 /\
    first <> [] /\ count <> [] /\ forallb is_digit first = true /\ forallb is_digit count = true.

(** 6.1.6: a hexadecimal string has an even number of characters that are not white space, all of them hexadecimal digits. *)
Definition whole_bytes (token : bytes) : Prop :=
  match token with
  | x3c :: x3c :: _ => True
  | x3c :: r => let digits := List.filter (fun b => negb (is_ws b)) (fst (span (fun b => negb (beq b x3e)) r)) in
      Nat.even (List.length digits) = true /\ forallb (fun b => match hexval b with Some _ => true | None => false end) digits = true
  | _ => True
  end.
(** So are all in [s] up to the end of the object, the beginning of the data of a stream, or the end of the trailer. *)
Inductive strings_whole : bytes -> Prop :=
| whole_end s k r : next_token s = Some (TKeyword k, r) -> In k [lit "endobj"; lit "stream"; lit "startxref"] -> strings_whole s
| whole_token s t r : next_token s = Some (t, r) -> whole_bytes (blanks s) -> strings_whole r -> strings_whole s.

(** 6.1.7 and 6.1.8 (6.1.9 in parts 2 and 3): an object at a position, with what a reader reads.  One white-space character between the
    numbers and before [obj]; end-of-line markers before the object number, after [obj], before and after [endobj]; after [stream] a line feed
    or a carriage return and a line feed, an end-of-line marker before [endstream], and exactly as many bytes in between as the length says. *)
Definition archival_body (i : indirect) (body : bytes) : Prop :=
  match i with
  | IObj _ _ _ => True
  | IStream _ _ d data =>
      exists dict e1 e2, body = dict ++ lit "stream" ++ e1 ++ data ++ e2 ++ lit "endstream" /\
        (e1 = [x0a] \/ e1 = [x0d; x0a]) /\ line_end e2 /\ lookup (lit "Length") d = Some (VInt (blen data))
  end.
Definition archival_object (file : bytes) (x : Z * indirect) : Prop :=
  exists before number w1 generation w2 e1 body e2 after,
    file = before ++ number ++ [w1] ++ generation ++ [w2] ++ lit "obj" ++ e1 ++ body ++ e2 ++ lit "endobj" ++ after /\
    blen before = fst x /\ after_line_end before /\ before_line_end after /\
    parse_indirect (from file (fst x)) = Some (snd x, after) /\
    number <> [] /\ generation <> [] /\ forallb is_digit number = true /\ forallb is_digit generation = true /\
    digits_val number = fst (indirect_id (snd x)) /\ digits_val generation = snd (indirect_id (snd x)) /\
    is_ws w1 = true /\ is_ws w2 = true /\ line_end e1 /\ line_end e2 /\
    archival_body (snd x) body /\ strings_whole (from file (fst x)).
(** The strings of the trailer dictionary, after the subsections of a table. *)
Definition archival_trailer (file : bytes) (start : Z) : Prop :=
  exists r1 r2 entries trailer, strip (lit "xref") (from file start) = Some r1 /\ eol r1 = Some r2 /\
    subsections (List.length r2) r2 = Some (entries, trailer) /\ strings_whole trailer.
