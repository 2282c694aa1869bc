(** Model of the typed constructors of [Chunk] (src/chunk.rs:253-493) and of programs that use them.
    Generated by gen/gen_doc.py from the source text. *)

From Coq Require Import ZArith List Bool.
From Verif Require ModelContent ModelCmap.
From Verif Require Import Bytes ModelFloat ModelBuf ModelObject ModelChunk ModelColor ModelSmall ModelPdf ModelTw ModelEnums ModelRoles ModelTwArgs
  ModelTwFiles ModelTwGraphics ModelTwAnnot ModelTwForms ModelTwAttr ModelTwXObj ModelTwFonts ModelTwDoc ModelFontDesc SpecChunk.
Import ListNotations.
Local Open Scope Z_scope.

(** src/color.rs:184-231 [IccProfile], which dereferences to a stream. *)
Definition icc_dict (calls : list (or_stream Stream_call icc_call)) : option (list (bytes * obj)) :=
  stream_writer Stream_entries [] (fun c => option_map (fun e => [e]) (icc_entry c)) calls.

(** A call of a typed constructor with the calls on the writer that it returns. *)
Inductive chunk_call :=
| Ck_pages (calls : Pages_calls)
| Ck_page (calls : Page_calls)
| Ck_outline (calls : Outline_calls)
| Ck_outline_item (calls : OutlineItem_calls)
| Ck_destination (calls : Destination_calls)
| Ck_destinations (calls : list (bytes * Destination_calls))
| Ck_file_spec (calls : FileSpec_calls)
| Ck_embedded_file (data : bytes) (calls : EmbeddedFile_calls)
| Ck_struct_element (calls : StructElement_calls)
| Ck_namespace (calls : Namespace_calls)
| Ck_metadata (data : bytes) (calls : Metadata_calls)
| Ck_image_xobject (data : bytes) (calls : ImageXObject_calls)
| Ck_form_xobject (data : bytes) (calls : FormXObject_calls)
| Ck_ext_graphics (calls : ExtGraphicsState_calls)
| Ck_type1_font (calls : Type1Font_calls)
| Ck_type3_font (calls : Type3Font_calls)
| Ck_type0_font (calls : Type0Font_calls)
| Ck_cid_font (calls : CidFont_calls)
| Ck_font_descriptor (calls : list fd_call)
| Ck_cmap (data : bytes) (calls : Cmap_calls)
| Ck_color_space (calls : cs)
| Ck_function_shading (calls : FunctionShading_calls)
| Ck_stream_shading (data : bytes) (calls : StreamShading_calls)
| Ck_tiling_pattern (data : bytes) (calls : TilingPattern_calls)
| Ck_shading_pattern (calls : ShadingPattern_calls)
| Ck_icc_profile (data : bytes) (calls : list (or_stream Stream_call icc_call))
| Ck_sampled_function (data : bytes) (calls : SampledFunction_calls)
| Ck_exponential_function (calls : ExponentialFunction_calls)
| Ck_stitching_function (calls : StitchingFunction_calls)
| Ck_post_script_function (data : bytes) (calls : PostScriptFunction_calls)
| Ck_name_tree (calls : list name_tree_call)
| Ck_number_tree (calls : list number_tree_call)
| Ck_annotation (calls : Annotation_calls)
| Ck_form_field (calls : Field_calls)
| Ck_signature_field_lock (calls : SignatureFieldLock_calls)
| Ck_signature_seed_value (calls : SignatureSeedValue_calls)
| Ck_stream (data : bytes) (calls : Stream_calls).

(** What is then written under the id; [None] is a panic. *)
Definition chunk_call_body (c : chunk_call) : option body :=
  match c with
  | Ck_pages calls => Some (BObj (Pages_obj calls))   (* src/chunk.rs:255-257 *)
  | Ck_page calls => option_map BObj (Page_obj calls)   (* src/chunk.rs:260-262 *)
  | Ck_outline calls => option_map BObj (Outline_obj calls)   (* src/chunk.rs:265-267 *)
  | Ck_outline_item calls => Some (BObj (OutlineItem_obj calls))   (* src/chunk.rs:270-272 *)
  | Ck_destination calls => Some (BObj (Destination_obj calls))   (* src/chunk.rs:275-277 *)
  | Ck_destinations calls => Some (BObj (dict_of Destination_obj calls))   (* src/chunk.rs:280-282 *)
  | Ck_file_spec calls => Some (BObj (FileSpec_obj calls))   (* src/chunk.rs:285-287 *)
  | Ck_embedded_file data calls => option_map (fun es => BStream es data) (EmbeddedFile_dict calls)   (* src/chunk.rs:290-292 *)
  | Ck_struct_element calls => Some (BObj (StructElement_obj calls))   (* src/chunk.rs:295-297 *)
  | Ck_namespace calls => Some (BObj (Namespace_obj calls))   (* src/chunk.rs:300-302 *)
  | Ck_metadata data calls => option_map (fun es => BStream es data) (Metadata_dict calls)   (* src/chunk.rs:305-307 *)
  | Ck_image_xobject data calls => option_map (fun es => BStream es data) (ImageXObject_dict calls)   (* src/chunk.rs:316-322 *)
  | Ck_form_xobject data calls => option_map (fun es => BStream es data) (FormXObject_dict calls)   (* src/chunk.rs:333-335 *)
  | Ck_ext_graphics calls => Some (BObj (ExtGraphicsState_obj calls))   (* src/chunk.rs:338-340 *)
  | Ck_type1_font calls => Some (BObj (Type1Font_obj calls))   (* src/chunk.rs:346-348 *)
  | Ck_type3_font calls => Some (BObj (Type3Font_obj calls))   (* src/chunk.rs:351-353 *)
  | Ck_type0_font calls => Some (BObj (Type0Font_obj calls))   (* src/chunk.rs:356-358 *)
  | Ck_cid_font calls => Some (BObj (CidFont_obj calls))   (* src/chunk.rs:361-363 *)
  | Ck_font_descriptor calls => Some (BObj (fd_obj calls))   (* src/chunk.rs:366-368 *)
  | Ck_cmap data calls => option_map (fun es => BStream es data) (Cmap_dict calls)   (* src/chunk.rs:374-376 *)
  | Ck_color_space calls => option_map BObj (cs_obj calls)   (* src/chunk.rs:382-384 *)
  | Ck_function_shading calls => option_map BObj (FunctionShading_obj calls)   (* src/chunk.rs:387-389 *)
  | Ck_stream_shading data calls => option_map (fun es => BStream es data) (StreamShading_dict calls)   (* src/chunk.rs:392-398 *)
  | Ck_tiling_pattern data calls => option_map (fun es => BStream es data) (TilingPattern_dict calls)   (* src/chunk.rs:403-409 *)
  | Ck_shading_pattern calls => option_map BObj (ShadingPattern_obj calls)   (* src/chunk.rs:412-414 *)
  | Ck_icc_profile data calls => option_map (fun es => BStream es data) (icc_dict calls)   (* src/chunk.rs:422-424 *)
  | Ck_sampled_function data calls => option_map (fun es => BStream es data) (SampledFunction_dict calls)   (* src/chunk.rs:430-436 *)
  | Ck_exponential_function calls => Some (BObj (ExponentialFunction_obj calls))   (* src/chunk.rs:439-441 *)
  | Ck_stitching_function calls => Some (BObj (StitchingFunction_obj calls))   (* src/chunk.rs:444-446 *)
  | Ck_post_script_function data calls => option_map (fun es => BStream es data) (PostScriptFunction_dict calls)   (* src/chunk.rs:451-457 *)
  | Ck_name_tree calls => Some (BObj (name_tree_obj calls))   (* src/chunk.rs:463-465 *)
  | Ck_number_tree calls => Some (BObj (number_tree_obj calls))   (* src/chunk.rs:468-470 *)
  | Ck_annotation calls => Some (BObj (Annotation_obj calls))   (* src/chunk.rs:476-478 *)
  | Ck_form_field calls => Some (BObj (Field_obj calls))   (* src/chunk.rs:481-483 *)
  | Ck_signature_field_lock calls => Some (BObj (SignatureFieldLock_obj calls))   (* src/chunk.rs:486-488 *)
  | Ck_signature_seed_value calls => Some (BObj (SignatureSeedValue_obj calls))   (* src/chunk.rs:491-493 *)
  | Ck_stream data calls => option_map (fun es => BStream es data) (Stream_dict calls)   (* src/chunk.rs:247-249 *)
  end.

(** A call on a [Pdf]: a typed constructor, the catalog or the document information with their typed methods
    (src/lib.rs:293-306), or anything else. *)
Inductive doc_op :=
| DocTyped (id : Z) (c : chunk_call)
| DocCatalog (id : Z) (calls : Catalog_calls)
| DocInfo (id : Z) (calls : DocumentInfo_calls)
| DocOther (op : pdf_op).
Definition doc_op_plain (op : doc_op) : option pdf_op :=
  match op with
  | DocTyped id c =>
      option_map (fun b => match b with BObj o => PdfObject id o | BStream es data => PdfStream id es data end) (chunk_call_body c)
  | DocCatalog id calls => option_map (PdfCatalog id) (writer_list_opt [] Catalog_entries calls)
  | DocInfo id calls => Some (PdfInfo id (writer_list [] DocumentInfo_entries calls))
  | DocOther op => Some op
  end.
(** A panicking call ends the program. *)
Definition doc_run (ops : list doc_op) (p : pdf) : option pdf :=
  match all_some doc_op_plain ops with Some l => pdf_run l p | None => None end.
