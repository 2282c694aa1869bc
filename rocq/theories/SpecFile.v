(** Specification: how a PDF reader opens a finished file (ISO 32000-1, 7.5).

    The first part refers only to the lexer and the object parser of SpecLex.v and SpecObj.v.
    The second part says what a sequence of [Pdf] calls asks for. *)

From Coq Require Import ZArith List Bool.
From Verif Require Import Bytes SpecLex SpecObj.
Import ListNotations.
Local Open Scope Z_scope.

(** ** Reading a file *)

(** 7.2.2: CR LF, LF and CR are end-of-line markers. *)
Definition eol (s : bytes) : option bytes :=
  match s with
  | x0d :: x0a :: r => Some r
  | x0d :: r => Some r
  | x0a :: r => Some r
  | _ => None
  end.

(** An unsigned decimal number. *)
Definition digits_at (s : bytes) : option (Z * bytes) :=
  let '(d, r) := span is_digit s in
  match d with [] => None | _ => Some (digits_val d, r) end.

(** 7.5.5: the last line is %%EOF, the two lines before it are the keyword [startxref] and the
    byte offset of the cross-reference section.  Read backwards from the end. *)
Definition eol_back (s : bytes) : option bytes :=
  match s with
  | x0a :: x0d :: r => Some r
  | x0a :: r => Some r
  | x0d :: r => Some r
  | _ => None
  end.

Definition startxref (file : bytes) : option Z :=
  match strip (rev (lit "%%EOF")) (rev file) with
  | Some s1 =>
      match eol_back s1 with
      | Some s2 =>
          let '(d, s3) := span is_digit s2 in
          match d, eol_back s3 with
          | _ :: _, Some s4 =>
              match strip (rev (lit "startxref")) s4 with
              | Some _ => Some (digits_val (rev d))
              | None => None
              end
          | _, _ => None
          end
      | None => None
      end
  | None => None
  end.

(** Cross-reference entries (7.5.4 and 7.5.8.3, Table 18). *)
Inductive xentry := XFree (next gen : Z) | XUsed (offset gen : Z) | XCompressed (stream index : Z).

(** 7.5.4: an entry is exactly 20 bytes: a 10-digit number, a space, a 5-digit generation
    number, a space, [n] or [f] and a 2-character end-of-line. *)
Definition entry20 (e : bytes) : option xentry :=
  let num := firstn 10 e in
  let gen := firstn 5 (skipn 11 e) in
  if (blen e =? 20) && forallb is_digit num && forallb is_digit gen &&
     bytes_eqb (firstn 1 (skipn 10 e)) [x20] && bytes_eqb (firstn 1 (skipn 16 e)) [x20] &&
     (bytes_eqb (skipn 18 e) [x20; x0d] || bytes_eqb (skipn 18 e) [x20; x0a] || bytes_eqb (skipn 18 e) [x0d; x0a])
  then match firstn 1 (skipn 17 e) with
       | [x6e] => Some (XUsed (digits_val num) (digits_val gen))
       | [x66] => Some (XFree (digits_val num) (digits_val gen))
       | _ => None
       end
  else None.

(** [count] entries for the object numbers from [first] on. *)
Fixpoint entries20 (count : nat) (first : Z) (s : bytes) : option (list (Z * xentry) * bytes) :=
  match count with
  | O => Some ([], s)
  | S n =>
      match entry20 (firstn 20 s) with
      | Some e =>
          match entries20 n (first + 1) (skipn 20 s) with
          | Some (l, r) => Some ((first, e) :: l, r)
          | None => None
          end
      | None => None
      end
  end.

(** A subsection: [first count] on a line, then the entries. *)
Definition subsection (s : bytes) : option (list (Z * xentry) * bytes) :=
  match digits_at s with
  | Some (first, r1) =>
      match strip [x20] r1 with
      | Some r2 =>
          match digits_at r2 with
          | Some (count, r3) =>
              match eol r3 with
              | Some r4 => entries20 (Z.to_nat count) first r4
              | None => None
              end
          | None => None
          end
      | None => None
      end
  | None => None
  end.

(** Subsections up to the keyword [trailer]. *)
Fixpoint subsections (fuel : nat) (s : bytes) : option (list (Z * xentry) * bytes) :=
  match strip (lit "trailer") s with
  | Some r => Some ([], r)
  | None =>
      match fuel with
      | O => None
      | S f =>
          match subsection s with
          | Some (l, r) =>
              match subsections f r with
              | Some (l', r') => Some (l ++ l', r')
              | None => None
              end
          | None => None
          end
      end
  end.

(** What a reader knows after reading the cross-reference section: the entries by object number,
    and the trailer dictionary. *)
Definition xref_section : Type := (list (Z * xentry) * list (bytes * val))%type.

(** 7.5.4, 7.5.5: a table, and after it the trailer dictionary followed by [startxref]. *)
Definition xref_table (s : bytes) : option xref_section :=
  match strip (lit "xref") s with
  | Some r1 =>
      match eol r1 with
      | Some r2 =>
          match subsections (List.length r2) r2 with
          | Some (l, r3) =>
              match objects (S (List.length r3)) [] r3 with
              | Some ([VDict d], Some (TKeyword k), _) =>
                  if bytes_eqb k (lit "startxref") then Some (l, d) else None
              | _ => None
              end
          | None => None
          end
      | None => None
      end
  | None => None
  end.

(** 7.5.8: cross-reference streams.  Fields are big-endian numbers of the widths given by the
    W array; the type field defaults to 1. *)
Definition big_endian (s : bytes) : Z := fold_left (fun a b => 256 * a + bz b) s 0.

Definition record_entry (w0 w1 w2 : nat) (s : bytes) : option xentry :=
  let ty := match w0 with O => 1 | _ => big_endian (firstn w0 s) end in
  let f1 := big_endian (firstn w1 (skipn w0 s)) in
  let f2 := big_endian (firstn w2 (skipn (w0 + w1) s)) in
  if ty =? 0 then Some (XFree f1 f2)
  else if ty =? 1 then Some (XUsed f1 f2)
  else if ty =? 2 then Some (XCompressed f1 f2)
  else None.

(** [count] records, which must be all of the data. *)
Fixpoint records (count : nat) (w0 w1 w2 : nat) (first : Z) (s : bytes) : option (list (Z * xentry)) :=
  match count with
  | O => match s with [] => Some [] | _ => None end
  | S n =>
      if (w0 + w1 + w2 <=? List.length s)%nat then
        match record_entry w0 w1 w2 (firstn (w0 + w1 + w2) s) with
        | Some e => option_map (cons (first, e)) (records n w0 w1 w2 (first + 1) (skipn (w0 + w1 + w2) s))
        | None => None
        end
      else None
  end.

(** The stream at the front of [s].  [decode] undoes the filters named by the Filter entry.
    (An Index entry, which would give other subsections than [0 Size], is not supported here.) *)
Definition xref_stream (decode : option val -> bytes -> option bytes) (s : bytes) : option xref_section :=
  match parse_indirect s with
  | Some (IStream _ _ d data, _) =>
      match lookup (lit "Type") d, lookup (lit "Size") d, lookup (lit "W") d, lookup (lit "Index") d,
            decode (lookup (lit "Filter") d) data with
      | Some (VName ty), Some (VInt size), Some (VArr [VInt w0; VInt w1; VInt w2]), None, Some raw =>
          if bytes_eqb ty (lit "XRef") && (0 <=? size) && (0 <=? w0) && (0 <=? w1) && (0 <=? w2) then
            option_map (fun l => (l, d))
              (records (Z.to_nat size) (Z.to_nat w0) (Z.to_nat w1) (Z.to_nat w2) 0 raw)
          else None
      | _, _, _, _, _ => None
      end
  | _ => None
  end.

(** A file without filters. *)
Definition no_filter (f : option val) (data : bytes) : option bytes :=
  match f with None => Some data | Some _ => None end.

(** The part of the file from a byte offset on. *)
Definition from (file : bytes) (offset : Z) : bytes := skipn (Z.to_nat offset) file.

(** Open a file. *)
Definition read_file (decode : option val -> bytes -> option bytes) (file : bytes) : option xref_section :=
  match startxref file with
  | Some off =>
      let s := from file off in
      match strip (lit "xref") s with
      | Some _ => xref_table s
      | None => xref_stream decode s
      end
  | None => None
  end.

Fixpoint find_entry (id : Z) (l : list (Z * xentry)) : option xentry :=
  match l with
  | [] => None
  | (i, e) :: r => if i =? id then Some e else find_entry id r
  end.

Definition indirect_id (i : indirect) : Z * Z :=
  match i with IObj n g _ => (n, g) | IStream n g _ _ => (n, g) end.

(** The object that a reference [id 0 R] denotes in a file, if any.
    (Objects in object streams are not supported here.) *)
Definition resolve (decode : option val -> bytes -> option bytes) (file : bytes) (id : Z) : option indirect :=
  match read_file decode file with
  | Some (entries, _) =>
      match find_entry id entries with
      | Some (XUsed off 0) =>
          match parse_indirect (from file off) with
          | Some (i, _) => if (fst (indirect_id i) =? id) && (snd (indirect_id i) =? 0) then Some i else None
          | None => None
          end
      | _ => None
      end
  | None => None
  end.

(** 7.5.4: the free entries form a linked list from object 0 on, each giving the number of the
    next free object; the last one gives 0.  [walk fuel l i] is what follows after object [i]. *)
Fixpoint walk (fuel : nat) (l : list (Z * xentry)) (i : Z) : option (list Z) :=
  match fuel with
  | O => None
  | S f =>
      match find_entry i l with
      | Some (XFree next _) => if next =? 0 then Some [] else option_map (cons next) (walk f l next)
      | _ => None
      end
  end.
Definition free_list (l : list (Z * xentry)) : option (list Z) := walk (List.length l) l 0.

(** The integers [a], [a+1], ... ([n] of them). *)
Fixpoint zrange (a : Z) (n : nat) : list Z :=
  match n with O => [] | S n => a :: zrange (a + 1) n end.

Definition zmem (i : Z) (l : list Z) : bool := existsb (Z.eqb i) l.

(** The largest of a list of non-negative numbers, 0 if there is none. *)
Definition zmax (l : list Z) : Z := fold_right Z.max 0 l.

(** The header [id 0 obj] of an indirect object is at this very offset. *)
Definition object_at (file : bytes) (offset id : Z) : Prop :=
  (exists d r, from file offset = d :: r /\ is_digit d = true) /\
  exists r1 r2 r3, next_token (from file offset) = Some (TInt id, r1) /\
    next_token r1 = Some (TInt 0, r2) /\ next_token r2 = Some (TKeyword (lit "obj"), r3).

(** The free objects below [n], in ascending order, given the used ones; without object 0. *)
Definition free_ids (used : list Z) (n : Z) : list Z :=
  List.filter (fun i => negb (zmem i used)) (zrange 1 (Z.to_nat (n - 1))).
