(** Specification: page trees in documents assembled from parts. *)

From Coq Require Import ZArith List Bool.
From Verif Require ModelContent SpecContent ModelCmap.
From Verif Require Import Bytes ModelFloat ModelBuf ModelObject ModelChunk ModelColor ModelSmall ModelPdf ModelTw ModelEnums ModelRoles ModelTwArgs
  ModelTwFiles ModelTwGraphics ModelTwAnnot ModelTwForms ModelTwAttr ModelTwXObj ModelTwFonts ModelTwDoc ModelFontDesc ModelDoc ModelPart
  SpecLex SpecObj SpecText SpecMeans SpecRenum SpecChunk SpecFile SpecPdf SpecTyped SpecColor SpecSmall SpecTw SpecEnums SpecRoles SpecTwArgs
  SpecTwFiles SpecTwGraphics SpecTwAnnot SpecTwForms SpecTwAttr SpecTwXObj SpecTwFonts SpecTwDoc SpecFontDesc SpecDoc SpecPart SpecPages.
Import ListNotations.
Local Open Scope Z_scope.

(** Everything written to the document or to one of its parts with a typed constructor or as an object: the id at that time, the
    renaming that was applied since, and the call. *)
Definition written_to (op : merge_op) : list (Z * (Z -> Z) * part_call) :=
  match op with
  | MDoc (DocTyped id c) => [(id, fun n => n, PcTyped c)]
  | MDoc _ => []
  | MExtend p => part_found p
  | MRenumber p T f s => part_found (PartRenumber (PartNew true) p T f s)
  end.
Definition all_written (ops : list merge_op) : list (Z * (Z -> Z) * part_call) := flat_map written_to ops.

(** The same as [content_written] and [tree_written] (SpecPages): the ids in the tree are those in the file; the calls had the ids
    before the renaming. *)
Definition content_assembled (decode : option val -> bytes -> option bytes) (ops : list merge_op) (calls : list ModelContent.ccall) (id : Z) : Prop :=
  exists id0 g scalls data pretty c,
    In (id0, g, PcTyped (Ck_stream data scalls)) (all_written ops) /\ g id0 = id /\
    forallb (SpecContent.ccall_ok pretty) calls = true /\
    ModelContent.content_run calls (ModelContent.content_with_settings pretty) = Some c /\
    stored decode scalls data (inner (ModelContent.content_finish c)).
Fixpoint tree_assembled (decode : option val -> bytes -> option bytes) (ops : list merge_op) (t : page_tree) : Prop :=
  match t with
  | PtNode id kids =>
      (exists id0 g calls kids0, In (id0, g, PcTyped (Ck_pages calls)) (all_written ops) /\ g id0 = id /\
        kids_given calls kids0 /\ map g kids0 = map tree_id kids) /\
      (fix all l := match l with [] => True | t :: l => tree_assembled decode ops t /\ all l end) kids
  | PtPage id contents =>
      exists id0 g calls, In (id0, g, PcTyped (Ck_page calls)) (all_written ops) /\ g id0 = id /\
        match contents with
        | NoContents => contents_given calls None
        | OneStream content => exists cid, contents_given calls (Some (inl cid)) /\ content_assembled decode ops content (g cid)
        | Streams l => exists cids, contents_given calls (Some (inr cids)) /\ Forall2 (content_assembled decode ops) l (map g cids)
        end
  end.
