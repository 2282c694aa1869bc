(** Specification: the calls that a document assembled from parts amounts to. *)

From Coq Require Import ZArith List Bool.
From Verif Require ModelContent ModelCmap.
From Verif Require Import Bytes ModelFloat ModelBuf ModelObject ModelChunk ModelColor ModelSmall ModelPdf ModelTw ModelEnums ModelRoles ModelTwArgs
  ModelTwFiles ModelTwGraphics ModelTwAnnot ModelTwForms ModelTwAttr ModelTwXObj ModelTwFonts ModelTwDoc ModelFontDesc ModelDoc ModelPart
  SpecRenum SpecChunk SpecDoc SpecPart SpecRename.
Import ListNotations.
Local Open Scope Z_scope.

(** A call on a part, with the id and the renaming that was applied since (SpecPart.v), as a call on the document itself: under the new
    id, with the new numbers for all references among its arguments. *)
Definition effective_call (x : Z * (Z -> Z) * part_call) : doc_op :=
  let '(id, g, c) := x in
  match c with
  | PcTyped c => DocTyped (g id) (chunk_call_ren g c)
  | PcObject o => DocOther (PdfObject (g id) (map_refs g o))
  end.
Definition effective_op (op : merge_op) : list doc_op :=
  match op with
  | MDoc op => [op]
  | MExtend p => map effective_call (part_found p)
  | MRenumber p T f s => map effective_call (part_found (PartRenumber (PartNew true) p T f s))
  end.
(** The whole program without parts. *)
Definition effective (ops : list merge_op) : list doc_op := flat_map effective_op ops.

(** All chunks have the same settings. *)
Fixpoint part_settings (pretty : bool) (p : part) : Prop :=
  match p with
  | PartNew b => b = pretty
  | PartWrite p _ _ | PartMerge p _ => part_settings pretty p
  | PartExtend p other => part_settings pretty p /\ part_settings pretty other
  | PartRenumber target source _ _ _ => part_settings pretty target /\ part_settings pretty source
  end.
Definition merge_settings (pretty : bool) (op : merge_op) : Prop :=
  match op with MDoc _ => True | MExtend p | MRenumber p _ _ _ => part_settings pretty p end.
