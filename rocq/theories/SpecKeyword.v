(** Specification: a reader that does not trust the lengths of streams.

    Programs that repair files, and some that only look at them, ignore the entry Length of a stream and take
    everything from the line after the keyword [stream] to the next keyword [endstream] (ISO 32000-1, 7.3.8.1: there
    should be an end of line before [endstream], which does not belong to the data; an end of line is a line feed, a
    carriage return, or both). *)

From Coq Require Import ZArith List Bool.
From Verif Require Import Bytes SpecLex SpecObj SpecFile.
Import ListNotations.
Local Open Scope Z_scope.

(** What comes before the first occurrence of [k], and what comes after it. *)
Fixpoint until (k s : bytes) : option (bytes * bytes) :=
  match strip k s with
  | Some r => Some ([], r)
  | None => match s with [] => None | c :: s => cons_fst c (until k s) end
  end.

(** Without the end of line at its end, if there is one. *)
Definition chop (s : bytes) : bytes := match eol_back (rev s) with Some r => rev r | None => s end.

(** The data of a stream, after the keyword [stream], up to [endobj]. *)
Definition keyword_data (s : bytes) : option (bytes * bytes) :=
  match match s with x0d :: x0a :: r => Some r | x0a :: r => Some r | _ => None end with
  | Some body =>
      match until (lit "endstream") body with
      | Some (data, r) =>
          match next_token r with
          | Some (TKeyword k, r2) => if bytes_eqb k (lit "endobj") then Some (chop data, r2) else None
          | _ => None
          end
      | None => None
      end
  | None => None
  end.

(** [n g obj ... endobj] at the front of [s], with [data] to find the data of a stream. *)
Definition indirect_with (data : list (bytes * val) -> bytes -> option (bytes * bytes)) (s : bytes) : option (indirect * bytes) :=
  match next_token s with
  | Some (TInt n, r1) =>
      match next_token r1 with
      | Some (TInt g, r2) =>
          match next_token r2 with
          | Some (TKeyword k, r3) =>
              if bytes_eqb k (lit "obj") then
                match objects (S (List.length r3)) [] r3 with
                | Some ([v], Some (TKeyword e), r4) =>
                    if bytes_eqb e (lit "endobj") then Some (IObj n g v, r4)
                    else if bytes_eqb e (lit "stream") then
                      match v with
                      | VDict d => match data d r4 with Some (x, r5) => Some (IStream n g d x, r5) | None => None end
                      | _ => None
                      end
                    else None
                | _ => None
                end
              else None
          | _ => None
          end
      | _ => None
      end
  | _ => None
  end.

(** With the length this is the usual way to read. *)
Lemma indirect_with_length s : indirect_with stream_data s = parse_indirect s.
Proof. reflexivity. Qed.

Definition by_keyword : bytes -> option (indirect * bytes) := indirect_with (fun _ => keyword_data).

(** All that can be read from the beginning on (SpecCut.v), ignoring the lengths. *)
Fixpoint repair (fuel : nat) (size : Z) (s : bytes) : list (Z * indirect) :=
  match fuel with
  | O => []
  | S f =>
      match by_keyword (blanks s) with
      | Some (i, r) => (size - blen (blanks s), i) :: repair f size r
      | None => []
      end
  end.

Definition repaired (s : bytes) : list (Z * indirect) := repair (List.length s) (blen s) s.

(** Data that cannot be mistaken: the keyword does not occur in it, and its last byte is not a carriage return,
    which would be taken for a part of the end of line that follows. *)
Definition plain_data (d : bytes) : Prop := until (lit "endstream") d = None /\ forall x, d <> x ++ [x0d].

Definition plain_object (i : indirect) : Prop := match i with IObj _ _ _ => True | IStream _ _ _ d => plain_data d end.
