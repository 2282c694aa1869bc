(** Specification: the chunk that the same calls would have written. *)

From Coq Require Import ZArith List Bool.
From Verif Require Import Bytes ModelFloat ModelBuf ModelObject ModelRenumber ModelChunk ModelPdf SpecLex SpecObj SpecMeans
  SpecRenum SpecChunk SpecFile SpecPdf SpecLimits.
Import ListNotations.
Local Open Scope Z_scope.

(** The same call on a chunk; the catalog and the document information are ordinary objects
    there, and the calls that only concern the file as a whole do nothing. *)
Definition on_a_chunk (h : hist) (op : pdf_op) : hist :=
  match op with
  | PdfObject id o => HObject h id o
  | PdfStream id es data => HStream h id es data
  | PdfExtend other => HExtend h other
  | PdfMerge l => HMerge h l
  | PdfRenumber source T f s => HRenumber h source T f s
  | PdfCatalog id es => HObject h id (ODict ((lit "Type", OPrim (PName (lit "Catalog"))) :: es))
  | PdfInfo id es => HObject h id (ODict es)
  | PdfFileId _ | PdfVersion _ _ | PdfMarker _ => h
  end.
Definition as_chunk (pretty : bool) (ops : list pdf_op) : hist := fold_left on_a_chunk ops (HNew pretty).

(** The limits passed to [merge_limits] are limits. *)
Definition ops_merges_ok (ops : list pdf_op) : Prop :=
  Forall (fun op => match op with
                    | PdfExtend h => merges_ok h
                    | PdfRenumber h _ _ _ => merges_ok h
                    | PdfMerge l => limits_ok l = true
                    | _ => True
                    end) ops.
