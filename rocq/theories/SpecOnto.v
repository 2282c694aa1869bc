(** Specification: parts can be written separately.

    A program may write the parts of a document into chunks of their own (in parallel, say, or to keep them for a later document) and then put
    them together with [extend].  That must give the same as writing everything into one chunk from the beginning. *)

From Coq Require Import ZArith List Bool.
From Verif Require Import Bytes ModelFloat ModelBuf ModelObject ModelRenumber ModelChunk ModelApi ModelPdf ModelCrash ModelLeak.
Import ListNotations.
Local Open Scope Z_scope.

(** The settings the chunk was made with. *)
Fixpoint made_with (k : hist) : bool :=
  match k with
  | HNew pretty => pretty
  | HObject k _ _ | HStream k _ _ _ | HExtend k _ | HMerge k _ | HRenumber k _ _ _ _ => made_with k
  end.

(** All calls of [k], made on the chunk with the history [h] instead of a new one. *)
Fixpoint onto (h k : hist) : hist :=
  match k with
  | HNew _ => h
  | HObject k id o => HObject (onto h k) id o
  | HStream k id es data => HStream (onto h k) id es data
  | HExtend k other => HExtend (onto h k) other
  | HMerge k l => HMerge (onto h k) l
  | HRenumber k source T f s => HRenumber (onto h k) source T f s
  end.

(** All calls of [k], made on a document. *)
Fixpoint directly (k : hist) : list pdf_op :=
  match k with
  | HNew _ => []
  | HObject k id o => directly k ++ [PdfObject id o]
  | HStream k id es data => directly k ++ [PdfStream id es data]
  | HExtend k other => directly k ++ [PdfExtend other]
  | HMerge k l => directly k ++ [PdfMerge l]
  | HRenumber k source T f s => directly k ++ [PdfRenumber source T f s]
  end.

(** The same where writers may be leaked, objects left unused and panics caught. *)
Fixpoint leak_made_with (k : leak_hist) : bool :=
  match k with
  | KkNew pretty => pretty
  | KkObject k _ _ | KkStream k _ _ _ | KkExtend k _ | KkMerge k _ | KkRenumber k _ _ _ _ => leak_made_with k
  end.
Fixpoint leak_onto (h k : leak_hist) : leak_hist :=
  match k with
  | KkNew _ => h
  | KkObject k id cs => KkObject (leak_onto h k) id cs
  | KkStream k id data cs => KkStream (leak_onto h k) id data cs
  | KkExtend k other => KkExtend (leak_onto h k) other
  | KkMerge k l => KkMerge (leak_onto h k) l
  | KkRenumber k source T f s => KkRenumber (leak_onto h k) source T f s
  end.
Fixpoint leak_directly (k : leak_hist) : list leak_op :=
  match k with
  | KkNew _ => []
  | KkObject k id cs => leak_directly k ++ [LpObject id cs]
  | KkStream k id data cs => leak_directly k ++ [LpStream id data cs]
  | KkExtend k other => leak_directly k ++ [LpExtend other]
  | KkMerge k l => leak_directly k ++ [LpMerge l]
  | KkRenumber k source T f s => leak_directly k ++ [LpRenumber source T f s]
  end.

(** Both panic or neither does, and then [P] holds of the results. *)
Definition alike_with {A B} (P : A -> B -> Prop) (a : option A) (b : option B) : Prop :=
  match a, b with Some a, Some b => P a b | None, None => True | _, _ => False end.

(** [whole] consists of [first] and then [part]: bytes, and the positions of the objects. *)
Definition put_together (first part whole : chunk) : Prop :=
  chunk_bytes whole = chunk_bytes first ++ chunk_bytes part /\
  c_offsets whole = c_offsets first ++ map (fun e => (fst e, chunk_len first + snd e)) (c_offsets part) /\
  c_pretty whole = c_pretty first.

(** Two chunks or documents nobody can tell apart by what they contain. *)
Definition same_chunk (c d : chunk) : Prop :=
  chunk_bytes c = chunk_bytes d /\ c_offsets c = c_offsets d /\ c_pretty c = c_pretty d.
Definition same_pdf (p q : pdf) : Prop :=
  same_chunk (p_chunk p) (p_chunk q) /\ p_catalog p = p_catalog q /\ p_info p = p_info q /\ p_file_id p = p_file_id q.
Definition same_files (p q : pdf) : Prop :=
  finish p = finish q /\
  (forall id, finish_with_xref_stream p id = finish_with_xref_stream q id) /\
  (forall id flt, finish_with_xref_stream_and_filter p id flt = finish_with_xref_stream_and_filter q id flt).
