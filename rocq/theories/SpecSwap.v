(** Specification: what a document has to contain if its chunk was replaced, taken or swapped. *)

From Coq Require Import ZArith List Bool.
From Verif Require Import Bytes ModelFloat ModelBuf ModelObject ModelRenumber ModelChunk ModelPdf ModelSwap SpecLex SpecObj SpecMeans
  SpecRenum SpecChunk SpecPdf.
Import ListNotations.
Local Open Scope Z_scope.

(** The objects, in order: replacing the chunk replaces all of them. *)
Fixpoint objects_of (h : swap_hist) : list item :=
  match h with
  | ShNew _ => []
  | ShObject h id o => objects_of h ++ [(id, BObj o)]
  | ShStream h id es data => objects_of h ++ [(id, BStream es data)]
  | ShExtend h other => objects_of h ++ objects_of other
  | ShMerge h _ => objects_of h
  | ShRenumber target source T f s => objects_of target ++ fst (thread (map_item_st f) (objects_of source) s)
  | ShTaken d => objects_in d
  end
with objects_in (d : swap_pdf) : list item :=
  match d with
  | SwNew _ => []
  | SwReplace _ h => objects_of h
  | SwCatalog d id es => objects_in d ++ [(id, BObj (ODict ((lit "Type", OPrim (PName (lit "Catalog"))) :: es)))]
  | SwInfo d id es => objects_in d ++ [(id, BObj (ODict es))]
  | SwFileId d _ | SwVersion d _ _ | SwMarker d _ => objects_in d
  end.

(** The header is part of the chunk.  [Some calls]: the bytes start with a header, edited by these calls.  It comes along when the chunk is taken, is
    lost when the chunk is replaced, is copied by [extend] (and is at the start if there was nothing before), and is not copied by [renumber_into]. *)
Fixpoint header_at (h : swap_hist) : option (list pdf_op) :=
  match h with
  | ShNew _ => None
  | ShObject h _ _ | ShStream h _ _ _ | ShMerge h _ => header_at h
  | ShExtend h other =>
      match header_at h, objects_of h with
      | Some calls, _ => Some calls
      | None, [] => header_at other
      | None, _ => None
      end
  | ShRenumber target _ _ _ _ => header_at target
  | ShTaken d => header_in d
  end
with header_in (d : swap_pdf) : option (list pdf_op) :=
  match d with
  | SwNew _ => Some []
  | SwReplace _ h => header_at h
  | SwCatalog d _ _ | SwInfo d _ _ | SwFileId d _ => header_in d
  | SwVersion d M N => option_map (fun calls => calls ++ [PdfVersion M N]) (header_in d)
  | SwMarker d m => option_map (fun calls => calls ++ [PdfMarker m]) (header_in d)
  end.

(** The trailer is not part of the chunk: it stays with the [Pdf]. *)
Fixpoint trailer_calls (d : swap_pdf) : list pdf_op :=
  match d with
  | SwNew _ => []
  | SwReplace d _ | SwVersion d _ _ | SwMarker d _ => trailer_calls d
  | SwCatalog d id _ => trailer_calls d ++ [PdfCatalog id []]
  | SwInfo d id _ => trailer_calls d ++ [PdfInfo id []]
  | SwFileId d x => trailer_calls d ++ [PdfFileId x]
  end.

(** Arguments have their Rust types. *)
Fixpoint swap_typed (h : swap_hist) : Prop :=
  match h with
  | ShNew _ => True
  | ShObject h id o => swap_typed h /\ item_typed (id, BObj o) = true
  | ShStream h id es data => swap_typed h /\ item_typed (id, BStream es data) = true
  | ShExtend h other => swap_typed h /\ swap_typed other
  | ShMerge h _ => swap_typed h
  | ShRenumber target source T f s => swap_typed target /\ swap_typed source /\ (forall t id, id_ok (fst (f t id)) = true)
  | ShTaken d => swap_pdf_typed d
  end
with swap_pdf_typed (d : swap_pdf) : Prop :=
  match d with
  | SwNew _ => True
  | SwReplace d h => swap_pdf_typed d /\ swap_typed h
  | SwCatalog d id es | SwInfo d id es => swap_pdf_typed d /\ id_ok id = true /\ entries_typed es = true
  | SwFileId d _ | SwMarker d _ => swap_pdf_typed d
  | SwVersion d M N => swap_pdf_typed d /\ 0 <= M < 256 /\ 0 <= N < 256
  end.

(** The version and the marker are only set while the header is in place. *)
Fixpoint careful (h : swap_hist) : Prop :=
  match h with
  | ShNew _ => True
  | ShObject h _ _ | ShStream h _ _ _ | ShMerge h _ => careful h
  | ShExtend h other | ShRenumber h other _ _ _ => careful h /\ careful other
  | ShTaken d => careful_pdf d
  end
with careful_pdf (d : swap_pdf) : Prop :=
  match d with
  | SwNew _ => True
  | SwReplace d h => careful_pdf d /\ careful h
  | SwCatalog d _ _ | SwInfo d _ _ | SwFileId d _ => careful_pdf d
  | SwVersion d _ _ | SwMarker d _ => careful_pdf d /\ header_in d <> None
  end.

(** Everything that was ever written, also what is replaced later. *)
Fixpoint ever_written (h : swap_hist) : list item :=
  match h with
  | ShNew _ => []
  | ShObject h id o => ever_written h ++ [(id, BObj o)]
  | ShStream h id es data => ever_written h ++ [(id, BStream es data)]
  | ShExtend h other | ShRenumber h other _ _ _ => ever_written h ++ ever_written other
  | ShMerge h _ => ever_written h
  | ShTaken d => ever_written_in d
  end
with ever_written_in (d : swap_pdf) : list item :=
  match d with
  | SwNew _ => []
  | SwReplace d h => ever_written_in d ++ ever_written h
  | SwCatalog d id es => ever_written_in d ++ [(id, BObj (ODict ((lit "Type", OPrim (PName (lit "Catalog"))) :: es)))]
  | SwInfo d id es => ever_written_in d ++ [(id, BObj (ODict es))]
  | SwFileId d _ | SwVersion d _ _ | SwMarker d _ => ever_written_in d
  end.

(** The plain histories of [Chunk] and of [Pdf], as such histories: a method of [Chunk] called on a [Pdf]. *)
Fixpoint plain_chunk (h : hist) : swap_hist :=
  match h with
  | HNew p => ShNew p
  | HObject h id o => ShObject (plain_chunk h) id o
  | HStream h id es data => ShStream (plain_chunk h) id es data
  | HExtend h o => ShExtend (plain_chunk h) (plain_chunk o)
  | HMerge h l => ShMerge (plain_chunk h) l
  | HRenumber t src T f s => ShRenumber (plain_chunk t) (plain_chunk src) T f s
  end.
Definition plain_call (d : swap_pdf) (op : pdf_op) : swap_pdf :=
  match op with
  | PdfObject id o => SwReplace d (ShObject (ShTaken d) id o)
  | PdfStream id es data => SwReplace d (ShStream (ShTaken d) id es data)
  | PdfExtend other => SwReplace d (ShExtend (ShTaken d) (plain_chunk other))
  | PdfMerge l => SwReplace d (ShMerge (ShTaken d) l)
  | PdfRenumber source T f s => SwReplace d (ShRenumber (ShTaken d) (plain_chunk source) T f s)
  | PdfCatalog id es => SwCatalog d id es
  | PdfInfo id es => SwInfo d id es
  | PdfFileId x => SwFileId d x
  | PdfVersion M N => SwVersion d M N
  | PdfMarker m => SwMarker d m
  end.
Definition plain_calls (ops : list pdf_op) (d : swap_pdf) : swap_pdf := fold_left plain_call ops d.
