(** Specification: what a sequence of calls on a [Pdf] asks for. *)

From Coq Require Import ZArith List Bool.
From Verif Require Import Bytes ModelFloat ModelBuf ModelObject ModelChunk ModelPdf SpecLex SpecObj SpecMeans
  SpecRenum SpecChunk.
Import ListNotations.
Local Open Scope Z_scope.

(** The objects asked for by one call, in order. *)
Definition op_items (op : pdf_op) : list item :=
  match op with
  | PdfObject id o => [(id, BObj o)]
  | PdfStream id es data => [(id, BStream es data)]
  | PdfExtend other => hist_items other
  | PdfRenumber source T f s => fst (thread (map_item_st f) (hist_items source) s)
  | PdfCatalog id es => [(id, BObj (ODict ((lit "Type", OPrim (PName (lit "Catalog"))) :: es)))]
  | PdfInfo id es => [(id, BObj (ODict es))]
  | PdfMerge _ | PdfFileId _ | PdfVersion _ _ | PdfMarker _ => []
  end.
Definition pdf_items (ops : list pdf_op) : list item := flat_map op_items ops.
Definition pdf_ids (ops : list pdf_op) : list Z := map fst (pdf_items ops).

(** Arguments have their Rust types. *)
Definition op_typed (op : pdf_op) : Prop :=
  match op with
  | PdfObject id o => item_typed (id, BObj o) = true
  | PdfStream id es data => item_typed (id, BStream es data) = true
  | PdfExtend other => hist_typed other
  | PdfRenumber source T f s => hist_typed source /\ (forall t id, id_ok (fst (f t id)) = true)
  | PdfCatalog id es | PdfInfo id es => id_ok id = true /\ entries_typed es = true
  | PdfMerge _ | PdfFileId _ | PdfMarker _ => True
  | PdfVersion major minor => 0 <= major < 256 /\ 0 <= minor < 256
  end.
Definition ops_typed (ops : list pdf_op) : Prop := Forall op_typed ops.

(** The last result of [f] on the calls. *)
Definition last_call {A} (f : pdf_op -> option A) (ops : list pdf_op) : option A :=
  fold_left (fun a op => match f op with Some x => Some x | None => a end) ops None.

Definition catalog_of : list pdf_op -> option Z :=
  last_call (fun op => match op with PdfCatalog id _ => Some id | _ => None end).
Definition info_of : list pdf_op -> option Z :=
  last_call (fun op => match op with PdfInfo id _ => Some id | _ => None end).
Definition file_id_of : list pdf_op -> option (bytes * bytes) :=
  last_call (fun op => match op with PdfFileId id => Some id | _ => None end).
Definition major_of (ops : list pdf_op) : Z :=
  match last_call (fun op => match op with PdfVersion m _ => if m <? 10 then Some m else None | _ => None end) ops
  with Some m => m | None => 1 end.
Definition minor_of (ops : list pdf_op) : Z :=
  match last_call (fun op => match op with PdfVersion _ m => if m <? 10 then Some m else None | _ => None end) ops
  with Some m => m | None => 7 end.
Definition marker_of (ops : list pdf_op) : byte * byte * byte * byte :=
  match last_call (fun op => match op with PdfMarker m => Some m | _ => None end) ops
  with Some m => m | None => (x80, x80, x80, x80) end.

(** The header line and the comment line that the calls ask for. *)
Definition header_of (ops : list pdf_op) : bytes :=
  let '(a, b, c, d) := marker_of ops in
  lit "%PDF-" ++ [zb (48 + major_of ops)] ++ lit "." ++ [zb (48 + minor_of ops)] ++ [x0a] ++
  lit "%" ++ [a; b; c; d] ++ [x0a; x0a].

(** Calls that only edit the header. *)
Definition header_edit (op : pdf_op) : bool :=
  match op with PdfVersion _ _ | PdfMarker _ => true | _ => false end.

(** The entries of the trailer that the calls ask for. *)
Definition trailer_value (ops : list pdf_op) (k : bytes) : option val :=
  if bytes_eqb k (lit "Root") then option_map (fun id => VRef id 0) (catalog_of ops)
  else if bytes_eqb k (lit "Info") then option_map (fun id => VRef id 0) (info_of ops)
  else if bytes_eqb k (lit "ID") then option_map (fun ab => VArr [VStr (fst ab); VStr (snd ab)]) (file_id_of ops)
  else None.

(** The names of the standard filters (Table 6). *)
Definition iso_filter (f : filter) : bytes :=
  match f with
  | AsciiHexDecode => lit "ASCIIHexDecode" | Ascii85Decode => lit "ASCII85Decode" | LzwDecode => lit "LZWDecode"
  | FlateDecode => lit "FlateDecode" | RunLengthDecode => lit "RunLengthDecode"
  | CcittFaxDecode => lit "CCITTFaxDecode" | Jbig2Decode => lit "JBIG2Decode" | DctDecode => lit "DCTDecode"
  | JpxDecode => lit "JPXDecode" | CryptFilter => lit "Crypt"
  end.

(** The value of a Filter entry. *)
Definition filter_val (f : option xref_filter) : option val :=
  match f with
  | None => None
  | Some (Single f) => Some (VName (iso_filter f))
  | Some (Multiple fs) => Some (VArr (map (fun f => VName (iso_filter f)) fs))
  end.

(** A reader undoes what the closure of [finish_with_xref_stream_and_filter] did. *)
Definition undoes (decode : option val -> bytes -> option bytes) (filter : bytes -> bytes * xref_filter) : Prop :=
  forall data, decode (filter_val (Some (snd (filter data)))) (fst (filter data)) = Some data.

(** Ids below [i32::MAX] (the number of entries is computed as an i32). *)
Definition ids_below (l : list Z) : Prop := Forall (fun id => id < i32_max) l.

(** The same Pdf with its record of written objects in another order. *)
Definition with_offsets (p : pdf) (l : list (Z * Z)) : pdf :=
  mkPdf (mkChunk (c_buf (p_chunk p)) l (c_pretty (p_chunk p))) (p_catalog p) (p_info p) (p_file_id p).

(** [file] is the result of finishing with a cross-reference stream through one of the two
    methods, and [decode] is a reader that can undo its filters. *)
Inductive finished_with_stream (decode : option val -> bytes -> option bytes) (p : pdf) (xref_id : Z) (file : bytes)
  : Prop :=
| FinishedPlain :
    finish_with_xref_stream p xref_id = Some file -> (forall data, decode None data = Some data) ->
    finished_with_stream decode p xref_id file
| FinishedFiltered filter :
    finish_with_xref_stream_and_filter p xref_id filter = Some file -> undoes decode filter ->
    finished_with_stream decode p xref_id file.

(** The last bytes of a file. *)
Definition ends_with (s e : bytes) : Prop := exists r, s = r ++ e.
