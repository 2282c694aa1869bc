(** Model of src/chunk.rs: [Chunk] and its histories. *)

From Coq Require Import ZArith List Lia Bool.
From Verif Require Import Bytes ModelFloat ModelBuf ModelObject ModelRenumber.
Import ListNotations.
Local Open Scope Z_scope.

(** src/chunk.rs:34-38 [struct Chunk]; [Settings] (4-16) has the one field [pretty]. *)
Record chunk := mkChunk { c_buf : buf; c_offsets : list (Z * Z); c_pretty : bool }.

(** src/chunk.rs:41-68 the constructors (capacities have no observable effect); the
    default setting (17-21) is [pretty = true]. *)
Definition chunk_with_settings (pretty : bool) : chunk := mkChunk buf_new [] pretty.
Definition chunk_new : chunk := chunk_with_settings true.

(** src/chunk.rs:71-75 and 83-85. *)
Definition chunk_bytes (c : chunk) : bytes := inner (c_buf c).
Definition chunk_len (c : chunk) : Z := blen (chunk_bytes c).

(** src/chunk.rs:88-93 [Chunk::extend]. *)
Definition chunk_extend (other self : chunk) : chunk :=
  let base := chunk_len self in
  mkChunk (extend_buf (c_buf other) (c_buf self))
          (c_offsets self ++ map (fun e => (fst e, base + snd e)) (c_offsets other))
          (c_pretty self).

(** src/chunk.rs:97-99 [Chunk::refs]. *)
Definition chunk_refs (c : chunk) : list Z := map fst (c_offsets c).

(** src/chunk.rs:102-104 and 126-128. *)
Definition chunk_limits (c : chunk) : limits := lims (c_buf c).
Definition chunk_merge_limits (l : limits) (c : chunk) : chunk :=
  mkChunk (with_limits (fun m => merge m l) (c_buf c)) (c_offsets c) (c_pretty c).

(** src/chunk.rs:181-187 [Chunk::renumber_into] with src/renumber.rs:6-26; [None] is a
    panic. *)
Definition chunk_renumber_into {S} (mapping : S -> Z -> Z * S) (source target : chunk) (s : S)
  : option (chunk * S) :=
  let b := with_limits (fun m => merge m (chunk_limits source)) (c_buf target) in
  match renumber_loop mapping (chunk_bytes source) (c_offsets source) (c_pretty target)
                      b (c_offsets target) s with
  | Some (b, offs, s) => Some (mkChunk b offs (c_pretty target), s)
  | None => None
  end.

(** src/chunk.rs:170-177 [Chunk::renumber]: the new chunk has the default settings. *)
Definition chunk_renumber {S} (mapping : S -> Z -> Z * S) (source : chunk) (s : S)
  : option (chunk * S) :=
  chunk_renumber_into mapping source chunk_new s.

(** src/chunk.rs:193-196 [Chunk::indirect]. *)
Definition chunk_indirect (id : Z) (c : chunk) : objw * chunk :=
  let offs := c_offsets c ++ [(id, chunk_len c)] in
  let '(w, b) := obj_indirect id (c_pretty c) (c_buf c) in
  (w, mkChunk b offs (c_pretty c)).

(** [chunk.indirect(id)] followed by writing the object [o] with the returned writer
    (an [Obj] must be used: it is [must_use] and has no [Drop]). *)
Definition chunk_object (id : Z) (o : obj) (c : chunk) : chunk :=
  let '(w, c) := chunk_indirect id c in
  mkChunk (write_obj o w (c_buf c)) (c_offsets c) (c_pretty c).

(** src/chunk.rs:247-249 [Chunk::stream], the extra entries written with the returned
    [Stream], and its drop; [None] is the panic for oversized data. *)
Definition chunk_stream (id : Z) (entries : list (bytes * obj)) (data : bytes) (c : chunk)
  : option chunk :=
  let '(w, c) := chunk_indirect id c in
  match write_stream w entries data (c_buf c) with
  | Some b => Some (mkChunk b (c_offsets c) (c_pretty c))
  | None => None
  end.

(** ** Histories

    How a chunk comes to be: any finite sequence of public operations, including
    operations with other chunks that have histories of their own.  The closure of
    [renumber_into] may be stateful.  (Merging limits of a content stream is [HMerge].) *)
Inductive hist : Type :=
| HNew (pretty : bool)
| HObject (h : hist) (id : Z) (o : obj)
| HStream (h : hist) (id : Z) (entries : list (bytes * obj)) (data : bytes)
| HExtend (h other : hist)
| HMerge (h : hist) (l : limits)
| HRenumber (target source : hist) (T : Type) (mapping : T -> Z -> Z * T) (s : T).

Fixpoint run (h : hist) : option chunk :=
  match h with
  | HNew pretty => Some (chunk_with_settings pretty)
  | HObject h id o => option_map (chunk_object id o) (run h)
  | HStream h id entries data =>
      match run h with Some c => chunk_stream id entries data c | None => None end
  | HExtend h other =>
      match run h, run other with
      | Some c, Some o => Some (chunk_extend o c)
      | _, _ => None
      end
  | HMerge h l => option_map (chunk_merge_limits l) (run h)
  | HRenumber target source T mapping s =>
      match run target, run source with
      | Some t, Some c => option_map fst (chunk_renumber_into mapping c t s)
      | _, _ => None
      end
  end.
