(** Specification: how a PDF reader parses objects (ISO 32000-1, 7.3), and what it means
    for a parsed value to denote what an API caller asked for.

    The parser refers only to the lexer of SpecLex.v.  The relation [means] refers to the
    API-level types of ModelObject.v (which are the arguments of the API calls) and to the
    text and date decoders of SpecText.v. *)

From Coq Require Import ZArith List Bool.
From Verif Require Import Bytes SpecLex.
Import ListNotations.
Local Open Scope Z_scope.

Inductive val : Type :=
| VNull
| VBool (b : bool)
| VInt (z : Z)
| VReal (n : Z) (k : nat)          (* n / 10^k *)
| VStr (s : bytes)
| VName (s : bytes)
| VRef (n g : Z)
| VArr (l : list val)
| VDict (l : list (bytes * val)).

(** Dictionaries: alternating names and values. *)
Fixpoint pair_up (l : list val) : option (list (bytes * val)) :=
  match l with
  | [] => Some []
  | VName k :: v :: r => option_map (cons (k, v)) (pair_up r)
  | _ => None
  end.

(** Read objects until a token that is not (the start of) an object; return the objects,
    that token ([None] at the end of the input) and the bytes after it.  [n g R]
    becomes a reference when the keyword [R] is met. *)
Fixpoint objects (fuel : nat) (acc : list val) (s : bytes)
  : option (list val * option token * bytes) :=
  match fuel with
  | O => None
  | S f =>
      match blanks s with
      | [] => Some (rev acc, None, [])
      | s' =>
          match lex_token s' with
          | None => None
          | Some (t, r) =>
              match t with
              | TInt z => objects f (VInt z :: acc) r
              | TReal n k => objects f (VReal n k :: acc) r
              | TStr x => objects f (VStr x :: acc) r
              | TName x => objects f (VName x :: acc) r
              | TArrOpen =>
                  match objects f [] r with
                  | Some (l, Some TArrClose, r') => objects f (VArr l :: acc) r'
                  | _ => None
                  end
              | TDictOpen =>
                  match objects f [] r with
                  | Some (l, Some TDictClose, r') =>
                      match pair_up l with
                      | Some d => objects f (VDict d :: acc) r'
                      | None => None
                      end
                  | _ => None
                  end
              | TKeyword k =>
                  if bytes_eqb k (lit "R") then
                    match acc with
                    | VInt g :: VInt n :: acc' => objects f (VRef n g :: acc') r
                    | _ => None
                    end
                  else if bytes_eqb k (lit "null") then objects f (VNull :: acc) r
                  else if bytes_eqb k (lit "true") then objects f (VBool true :: acc) r
                  else if bytes_eqb k (lit "false") then objects f (VBool false :: acc) r
                  else Some (rev acc, Some t, r)
              | TArrClose | TDictClose | TBraceOpen | TBraceClose => Some (rev acc, Some t, r)
              end
          end
      end
  end.

(** All objects of a byte string, to its very end. *)
Definition parse_objects (s : bytes) : option (list val) :=
  match objects (S (List.length s)) [] s with
  | Some (l, None, _) => Some l
  | _ => None
  end.

(** Exactly one object. *)
Definition parse_object (s : bytes) : option val :=
  match parse_objects s with
  | Some [v] => Some v
  | _ => None
  end.

(** ** Indirect objects and streams (7.3.10, 7.3.8) *)

Inductive indirect : Type :=
| IObj (n g : Z) (v : val)
| IStream (n g : Z) (d : list (bytes * val)) (data : bytes).

Fixpoint lookup (k : bytes) (d : list (bytes * val)) : option val :=
  match d with
  | [] => None
  | (k', v) :: r => if bytes_eqb k k' then Some v else lookup k r
  end.

(** Match a fixed prefix. *)
Fixpoint strip (p s : bytes) : option bytes :=
  match p, s with
  | [], _ => Some s
  | a :: p', b :: s' => if beq a b then strip p' s' else None
  | _ :: _, [] => None
  end.

(** The keyword [stream] is followed by CR LF or LF, then exactly /Length bytes of data,
    then (after optional end-of-line) [endstream] and [endobj]. *)
Definition stream_data (d : list (bytes * val)) (s : bytes) : option (bytes * bytes) :=
  let s' := match s with x0d :: x0a :: r => Some r | x0a :: r => Some r | _ => None end in
  match s', lookup (lit "Length") d with
  | Some body, Some (VInt n) =>
      if (0 <=? n) && (n <=? blen body) then
        let data := firstn (Z.to_nat n) body in
        match next_token (skipn (Z.to_nat n) body) with
        | Some (TKeyword k, r) =>
            if bytes_eqb k (lit "endstream") then
              match next_token r with
              | Some (TKeyword k2, r2) =>
                  if bytes_eqb k2 (lit "endobj") then Some (data, r2) else None
              | _ => None
              end
            else None
        | _ => None
        end
      else None
  | _, _ => None
  end.

(** [n g obj ... endobj] at the front of [s] (after white space). *)
Definition parse_indirect (s : bytes) : option (indirect * bytes) :=
  match next_token s with
  | Some (TInt n, r1) =>
      match next_token r1 with
      | Some (TInt g, r2) =>
          match next_token r2 with
          | Some (TKeyword k, r3) =>
              if bytes_eqb k (lit "obj") then
                match objects (S (List.length r3)) [] r3 with
                | Some ([v], Some (TKeyword e), r4) =>
                    if bytes_eqb e (lit "endobj") then Some (IObj n g v, r4)
                    else if bytes_eqb e (lit "stream") then
                      match v with
                      | VDict d =>
                          match stream_data d r4 with
                          | Some (data, r5) => Some (IStream n g d data, r5)
                          | None => None
                          end
                      | _ => None
                      end
                    else None
                | _ => None
                end
              else None
          | _ => None
          end
      | _ => None
      end
  | _ => None
  end.

(** A body: a sequence of indirect objects to the very end. *)
Fixpoint parse_body (fuel : nat) (s : bytes) : option (list indirect) :=
  match blanks s with
  | [] => Some []
  | _ =>
      match fuel with
      | O => None
      | S f =>
          match parse_indirect s with
          | Some (o, r) => option_map (cons o) (parse_body f r)
          | None => None
          end
      end
  end.
