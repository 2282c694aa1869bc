(** Specification: how a PDF reader splits bytes into tokens.

    Written from ISO 32000-1, clauses 7.2 (lexical conventions) and 7.3 (objects);
    nothing here refers to the code in /repo or to its model. *)

From Coq Require Import ZArith List Bool.
From Verif Require Import Bytes.
Import ListNotations.
Local Open Scope Z_scope.

(** 7.2.2, Table 1: white-space characters. *)
Definition is_ws (b : byte) : bool := bmem b [x00; x09; x0a; x0c; x0d; x20].

(** 7.2.2, Table 2: delimiter characters ( ) < > [ ] { } / %. *)
Definition is_delim (b : byte) : bool := bmem b (lit "()<>[]{}/%").

(** All other characters are regular. *)
Definition is_regular (b : byte) : bool := negb (is_ws b) && negb (is_delim b).

(** Tokens.  A real number is kept exactly: [TReal n k] is [n / 10^k]. *)
Inductive token : Type :=
| TInt (z : Z)
| TReal (n : Z) (k : nat)
| TStr (s : bytes)
| TName (s : bytes)
| TArrOpen | TArrClose
| TDictOpen | TDictClose
| TBraceOpen | TBraceClose
| TKeyword (s : bytes).

(** Value of a digit string. *)
Definition digits_val (ds : bytes) : Z := fold_left (fun a d => 10 * a + (bz d - 48)) ds 0.

(** Longest prefix whose bytes satisfy [p], and the rest. *)
Fixpoint span (p : byte -> bool) (s : bytes) : bytes * bytes :=
  match s with
  | [] => ([], [])
  | c :: r => if p c then let '(a, b) := span p r in (c :: a, b) else ([], s)
  end.

(** 7.3.3 numeric objects: optional sign, digits, optionally a period and digits; at
    least one digit; no exponent. *)
Definition number_unsigned (s : bytes) : option token :=
  let '(ip, r) := span is_digit s in
  match r with
  | [] => match ip with [] => None | _ => Some (TInt (digits_val ip)) end
  | c :: fp =>
      if beq c x2e && forallb is_digit fp
      then match ip ++ fp with
           | [] => None
           | ds => Some (TReal (digits_val ds) (List.length fp))
           end
      else None
  end.

Definition token_neg (t : token) : token :=
  match t with
  | TInt z => TInt (- z)
  | TReal n k => TReal (- n) k
  | t => t
  end.

Definition number (s : bytes) : option token :=
  match s with
  | x2d :: r => option_map token_neg (number_unsigned r)
  | x2b :: r => number_unsigned r
  | _ => number_unsigned s
  end.

(** Hexadecimal digit value. *)
Definition hexval (b : byte) : option Z :=
  let n := bz b in
  if (48 <=? n) && (n <=? 57) then Some (n - 48)
  else if (65 <=? n) && (n <=? 70) then Some (n - 55)
  else if (97 <=? n) && (n <=? 102) then Some (n - 87)
  else None.

(** 7.3.5 names: a number sign introduces a two-digit hexadecimal code. *)
Fixpoint name_decode (s : bytes) : option bytes :=
  match s with
  | [] => Some []
  | x23 :: r =>
      match r with
      | a :: b :: r' =>
          match hexval a, hexval b, name_decode r' with
          | Some x, Some y, Some n => Some (zb (16 * x + y) :: n)
          | _, _, _ => None
          end
      | _ => None
      end
  | c :: r => option_map (cons c) (name_decode r)
  end.

(** 7.3.4.3 hexadecimal strings: pairs of digits, white space ignored, a missing final
    digit counts as 0, ended by [>].  [acc] is a pending high digit. *)
Fixpoint hex_string (acc : option Z) (s : bytes) : option (bytes * bytes) :=
  match s with
  | [] => None
  | c :: r =>
      if beq c x3e then
        match acc with
        | None => Some ([], r)
        | Some h => Some ([zb (16 * h)], r)
        end
      else if is_ws c then hex_string acc r
      else
        match hexval c with
        | None => None
        | Some v =>
            match acc with
            | None => hex_string (Some v) r
            | Some h =>
                match hex_string None r with
                | Some (x, rest) => Some (zb (16 * h + v) :: x, rest)
                | None => None
                end
            end
        end
  end.

Definition is_octal (b : byte) : bool := (48 <=? bz b) && (bz b <=? 55).
Definition oct (b : byte) : Z := bz b - 48.

Definition cons_fst (c : byte) (x : option (bytes * bytes)) : option (bytes * bytes) :=
  match x with Some (a, b) => Some (c :: a, b) | None => None end.

(** 7.3.4.2 literal strings, after the opening parenthesis; [depth] counts the unescaped
    opening parentheses inside that are still to be closed.  Backslash escapes of
    Table 3, octal codes of one to three digits (overflow ignored), a backslash before
    an end-of-line continues the line, an unescaped end-of-line reads as one line feed,
    and any other backslash is dropped. *)
Fixpoint lit_string (depth : nat) (s : bytes) : option (bytes * bytes) :=
  match s with
  | [] => None
  | c :: r =>
      if beq c x28 then cons_fst x28 (lit_string (S depth) r)
      else if beq c x29 then
        match depth with
        | O => Some ([], r)
        | S d => cons_fst x29 (lit_string d r)
        end
      else if beq c x0d then
        match r with
        | b :: r1 => if beq b x0a then cons_fst x0a (lit_string depth r1)
                     else cons_fst x0a (lit_string depth r)
        | [] => None
        end
      else if beq c x5c then
        match r with
        | [] => None
        | a :: r1 =>
            if beq a x6e then cons_fst x0a (lit_string depth r1)
            else if beq a x72 then cons_fst x0d (lit_string depth r1)
            else if beq a x74 then cons_fst x09 (lit_string depth r1)
            else if beq a x62 then cons_fst x08 (lit_string depth r1)
            else if beq a x66 then cons_fst x0c (lit_string depth r1)
            else if beq a x0a then lit_string depth r1
            else if beq a x0d then
              match r1 with
              | b :: r2 => if beq b x0a then lit_string depth r2 else lit_string depth r1
              | [] => None
              end
            else if is_octal a then
              match r1 with
              | b :: r2 =>
                  if is_octal b then
                    match r2 with
                    | e :: r3 =>
                        if is_octal e
                        then cons_fst (zb (64 * oct a + 8 * oct b + oct e)) (lit_string depth r3)
                        else cons_fst (zb (8 * oct a + oct b)) (lit_string depth r2)
                    | [] => None
                    end
                  else cons_fst (zb (oct a)) (lit_string depth r1)
              | [] => None
              end
            else cons_fst a (lit_string depth r1)
        end
      else cons_fst c (lit_string depth r)
  end.

(** One token at the front of [s] (which must start with neither white space nor a
    comment), and what follows it. *)
Definition lex_token (s : bytes) : option (token * bytes) :=
  match s with
  | [] => None
  | x28 :: r => match lit_string 0 r with Some (x, rest) => Some (TStr x, rest) | None => None end
  | x3c :: x3c :: r => Some (TDictOpen, r)
  | x3c :: r => match hex_string None r with Some (x, rest) => Some (TStr x, rest) | None => None end
  | x3e :: x3e :: r => Some (TDictClose, r)
  | x5b :: r => Some (TArrOpen, r)
  | x5d :: r => Some (TArrClose, r)
  | x7b :: r => Some (TBraceOpen, r)
  | x7d :: r => Some (TBraceClose, r)
  | x2f :: r =>
      let '(n, rest) := span is_regular r in
      match name_decode n with Some x => Some (TName x, rest) | None => None end
  | c :: _ =>
      if is_regular c then
        let '(w, rest) := span is_regular s in
        Some (match number w with Some t => t | None => TKeyword w end, rest)
      else None
  end.

(** Everything up to (not including) the next end-of-line. *)
Definition skip_line (s : bytes) : bytes := snd (span (fun b => negb (bmem b [x0a; x0d])) s).

(** Drop leading white space and comments (7.2.3). *)
Fixpoint skip_blank (fuel : nat) (s : bytes) : bytes :=
  match fuel with
  | O => s
  | S f =>
      match s with
      | [] => []
      | c :: r =>
          if is_ws c then skip_blank f r
          else if beq c x25 then skip_blank f (skip_line r)
          else s
      end
  end.

Definition blanks (s : bytes) : bytes := skip_blank (List.length s) s.

(** Next token after white space and comments. [None] at the end or on a lexical error. *)
Definition next_token (s : bytes) : option (token * bytes) := lex_token (blanks s).

(** All tokens of [s], to its very end. *)
Fixpoint tokens_fuel (fuel : nat) (s : bytes) : option (list token) :=
  match blanks s with
  | [] => Some []
  | s' =>
      match fuel with
      | O => None
      | S f =>
          match lex_token s' with
          | Some (t, rest) => option_map (cons t) (tokens_fuel f rest)
          | None => None
          end
      end
  end.

Definition tokens (s : bytes) : option (list token) := tokens_fuel (List.length s) s.
