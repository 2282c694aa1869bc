(** Specification C98: when two ways to put a document together ask for the same thing. *)

From Coq Require Import ZArith List Bool.
From Verif Require Import Bytes ModelObject ModelChunk ModelPdf SpecObj SpecMeans SpecRenum SpecChunk SpecPdf.
Import ListNotations.
Local Open Scope Z_scope.

(** Every chunk that goes into the document was created with the same [pretty] setting. *)
Definition op_uniform (pretty : bool) (op : pdf_op) : Prop :=
  match op with
  | PdfExtend other => hist_uniform pretty other
  | PdfRenumber source _ _ _ => hist_uniform pretty source
  | _ => True
  end.
Definition ops_uniform (pretty : bool) (ops : list pdf_op) : Prop := Forall (op_uniform pretty) ops.

(** The two call sequences ask for the same objects in the same order, the same version and binary marker,
    and the same trailer. *)
Record same_document (a b : list pdf_op) : Prop := mkSame {
  sd_items : pdf_items a = pdf_items b;
  sd_major : major_of a = major_of b;
  sd_minor : minor_of a = minor_of b;
  sd_marker : marker_of a = marker_of b;
  sd_catalog : catalog_of a = catalog_of b;
  sd_info : info_of a = info_of b;
  sd_file_id : file_id_of a = file_id_of b
}.

(** One call that writes an object or a stream. *)
Definition direct_call (it : item) : pdf_op :=
  match snd it with
  | BObj o => PdfObject (fst it) o
  | BStream es data => PdfStream (fst it) es data
  end.

(** The same calls without secondary chunks: their objects are written directly, with the ids they end up
    with; recorded limits are not merged. *)
Definition without_chunks (ops : list pdf_op) : list pdf_op :=
  flat_map (fun op =>
    match op with
    | PdfExtend _ | PdfRenumber _ _ _ _ => map direct_call (op_items op)
    | PdfMerge _ => []
    | _ => [op]
    end) ops.

(** The two objects have the same number and a common reading. *)
Definition agree (x y : item) : Prop := exists i, item_means x i /\ item_means y i.

(** [file] is the document that [ops] ask for, in either layout and finished in any way; [own] are the ids that
    finishing itself uses. *)
Inductive file_of (decode : option val -> bytes -> option bytes) (ops : list pdf_op) (file : bytes) : list Z -> Prop :=
| FileTable pretty p :
    ops_typed ops -> pdf_run ops (pdf_with_settings pretty) = Some p -> finish p = Some file ->
    ids_below (pdf_ids ops) -> blen file <= 10 ^ 10 -> file_of decode ops file []
| FileStream pretty p xref_id :
    ops_typed ops -> pdf_run ops (pdf_with_settings pretty) = Some p -> id_ok xref_id = true -> ids_below (xref_id :: pdf_ids ops) ->
    finished_with_stream decode p xref_id file -> blen file < 2 ^ 64 -> file_of decode ops file [xref_id].
