(** Specification: what is written stays.

    A program may pass on the first part of a large document while it is still writing the rest ([as_bytes] and [len] can be called between any two
    calls), and it may keep positions.  Then no later call may change what is already there. *)

From Coq Require Import ZArith List Bool.
From Verif Require Import Bytes ModelFloat ModelBuf ModelObject ModelRenumber ModelChunk ModelApi ModelPdf ModelCrash ModelLeak ModelContent ModelOps.
Import ListNotations.
Local Open Scope Z_scope.

(** [b] is [a] with something added to the end. *)
Definition kept {A} (a b : list A) : Prop := exists more, b = a ++ more.

(** The same from the byte with index [n] on; no byte before it has moved. *)
Definition kept_from (n : Z) (a b : bytes) : Prop :=
  exists head head' body more, blen head = n /\ blen head' = n /\ a = head ++ body /\ b = head' ++ body ++ more.

(** [continues h h']: the chunk with the history [h'] is the one with the history [h] after any number of further calls. *)
Inductive continues : hist -> hist -> Prop :=
| then_nothing h : continues h h
| then_object h h' id o : continues h h' -> continues h (HObject h' id o)
| then_stream h h' id es data : continues h h' -> continues h (HStream h' id es data)
| then_extend h h' other : continues h h' -> continues h (HExtend h' other)
| then_merge h h' l : continues h h' -> continues h (HMerge h' l)
| then_renumber h h' source T f s : continues h h' -> continues h (HRenumber h' source T f s).

(** The same where writers may be leaked and panics caught in any of these calls. *)
Inductive leak_continues : leak_hist -> leak_hist -> Prop :=
| leak_nothing h : leak_continues h h
| leak_object h h' id cs : leak_continues h h' -> leak_continues h (KkObject h' id cs)
| leak_stream h h' id data cs : leak_continues h h' -> leak_continues h (KkStream h' id data cs)
| leak_extend h h' other : leak_continues h h' -> leak_continues h (KkExtend h' other)
| leak_merge h h' l : leak_continues h h' -> leak_continues h (KkMerge h' l)
| leak_renumber h h' source T f s : leak_continues h h' -> leak_continues h (KkRenumber h' source T f s).

(** The calls that are meant to change the first two lines. *)
Definition edits_header (op : pdf_op) : bool := match op with PdfVersion _ _ | PdfMarker _ => true | _ => false end.
Definition leak_edits_header (op : leak_op) : bool := match op with LpVersion _ _ | LpMarker _ => true | _ => false end.
