(** Model of programs that assemble a document from chunks written separately: [Chunk::extend] and [Chunk::renumber_into]
    (src/chunk.rs:88-93, 170-187) on chunks filled with the typed constructors, and the closure of the documentation of
    [Chunk::renumber]. *)

From Coq Require Import ZArith List Bool.
From Verif Require ModelContent ModelCmap.
From Verif Require Import Bytes ModelFloat ModelBuf ModelObject ModelChunk ModelColor ModelSmall ModelPdf ModelTw ModelEnums ModelRoles ModelTwArgs
  ModelTwFiles ModelTwGraphics ModelTwAnnot ModelTwForms ModelTwAttr ModelTwXObj ModelTwFonts ModelTwDoc ModelFontDesc ModelDoc SpecChunk.
Import ListNotations.
Local Open Scope Z_scope.

(** What is written under an id: with a typed constructor (src/chunk.rs:247-493), or with [Chunk::indirect]
    (src/chunk.rs:193-196) and a generic writer. *)
Inductive part_call := PcTyped (c : chunk_call) | PcObject (o : obj).
Definition part_call_body (c : part_call) : option body :=
  match c with PcTyped c => chunk_call_body c | PcObject o => Some (BObj o) end.

(** A chunk that is not a [Pdf], by the calls on it: [Chunk::with_settings] (src/chunk.rs:50-58), a constructor,
    [merge_limits] (126-128), [extend] with another such chunk, [renumber_into] this chunk from another.  The closure
    carries a state of type [T]. *)
Inductive part : Type :=
| PartNew (pretty : bool)
| PartWrite (p : part) (id : Z) (c : part_call)
| PartMerge (p : part) (l : limits)
| PartExtend (p other : part)
| PartRenumber (target source : part) (T : Type) (f : T -> Z -> Z * T) (s : T).

(** The same with the objects that are written; [None] is a panic in one of the typed writers. *)
Fixpoint part_hist (p : part) : option hist :=
  match p with
  | PartNew pretty => Some (HNew pretty)
  | PartWrite p id c =>
      match part_hist p, part_call_body c with
      | Some h, Some (BObj o) => Some (HObject h id o)
      | Some h, Some (BStream es data) => Some (HStream h id es data)
      | _, _ => None
      end
  | PartMerge p l => option_map (fun h => HMerge h l) (part_hist p)
  | PartExtend p other =>
      match part_hist p, part_hist other with Some h, Some o => Some (HExtend h o) | _, _ => None end
  | PartRenumber target source T f s =>
      match part_hist target, part_hist source with Some t, Some h => Some (HRenumber t h T f s) | _, _ => None end
  end.
Definition part_run (p : part) : option chunk := match part_hist p with Some h => run h | None => None end.

(** A call on a [Pdf]: as before, or [extend] / [renumber_into] with such a chunk ([Pdf] dereferences to its chunk,
    src/lib.rs:491-503). *)
Inductive merge_op : Type :=
| MDoc (op : doc_op)
| MExtend (p : part)
| MRenumber (p : part) (T : Type) (f : T -> Z -> Z * T) (s : T).
Definition merge_plain (op : merge_op) : option pdf_op :=
  match op with
  | MDoc op => doc_op_plain op
  | MExtend p => option_map PdfExtend (part_hist p)
  | MRenumber p T f s => option_map (fun h => PdfRenumber h T f s) (part_hist p)
  end.
Definition merge_run (ops : list merge_op) (p : pdf) : option pdf :=
  match all_some merge_plain ops with Some l => pdf_run l p | None => None end.

(** The closure in the documentation of [Chunk::renumber] (src/chunk.rs:150-157): a hash map from old to new ids and an
    allocator,
    [|old| *map.entry(old).or_insert_with(|| alloc.bump())].
    The map is an association list.  [Ref::bump] (src/object.rs:437-441) panics when the successor is not an i32; closures
    of the model do not panic, so this case keeps the state (the theorems exclude it). *)
Definition memo_state : Type := list (Z * Z) * Z.
Definition memo (t : memo_state) (old : Z) : Z * memo_state :=
  let '(map, alloc) := t in
  match find (fun e => fst e =? old) map with
  | Some e => (snd e, t)
  | None =>
      match ref_bump alloc with
      | Some (new, alloc) => (new, ((old, new) :: map, alloc))
      | None => (alloc, t)
      end
  end.
