(** Specification of documents built with the typed constructors.  Generated by gen/gen_doc.py. *)

From Coq Require Import ZArith List Bool.
From Verif Require ModelContent ModelCmap.
From Verif Require Import Bytes ModelFloat ModelBuf ModelObject ModelChunk ModelColor ModelSmall ModelPdf ModelTw ModelEnums ModelRoles ModelTwArgs
  ModelTwFiles ModelTwGraphics ModelTwAnnot ModelTwForms ModelTwAttr ModelTwXObj ModelTwFonts ModelTwDoc ModelFontDesc ModelDoc
  SpecLex SpecObj SpecText SpecMeans SpecRenum SpecChunk SpecFile SpecPdf SpecTyped SpecColor SpecSmall SpecTw SpecEnums SpecRoles SpecTwArgs
  SpecTwFiles SpecTwGraphics SpecTwAnnot SpecTwForms SpecTwAttr SpecTwXObj SpecTwFonts SpecTwDoc SpecFontDesc.
Import ListNotations.
Local Open Scope Z_scope.

(** The entries of an ICC profile stream. *)
Definition icc_call_doc (c : icc_call) : list entry_spec :=
  match c with
  | IccN n => [(lit "N", is_int n)]
  | IccAlternate c => [(lit "Alternate", cs_reads c)]
  | IccAlternateName n => [(lit "Alternate", is_name n)]
  | IccRange l => [(lit "Range", is_reals l)]
  | IccMetadata r => [(lit "Metadata", is_ref r)]
  end.
Definition icc_doc (calls : list (or_stream Stream_call icc_call)) : list entry_spec := flat_map (stream_doc Stream_doc icc_call_doc) calls.

(** The indirect object is an object, not a stream, with a value satisfying [P]. *)
Definition is_object (id : Z) (P : val -> Prop) (i : indirect) : Prop := exists v, i = IObj id 0 v /\ P v.
(** It is a stream with this data whose dictionary has the length, then the entries [xs]. *)
Definition is_stream (id : Z) (xs : list entry_spec) (data : bytes) (i : indirect) : Prop :=
  exists vs, i = IStream id 0 ((lit "Length", VInt (blen data)) :: vs) data /\ is_dict xs (VDict vs).

(** What a reader should find under the id. *)
Definition chunk_call_reads (id : Z) (c : chunk_call) : indirect -> Prop :=
  match c with
  | Ck_pages calls => is_object id (Pages_reads calls)
  | Ck_page calls => is_object id (Page_reads calls)
  | Ck_outline calls => is_object id (Outline_reads calls)
  | Ck_outline_item calls => is_object id (OutlineItem_reads calls)
  | Ck_destination calls => is_object id (Destination_reads calls)
  | Ck_destinations calls => is_object id (is_dict_of Destination_reads calls)
  | Ck_file_spec calls => is_object id (FileSpec_reads calls)
  | Ck_embedded_file data calls => is_stream id (EmbeddedFile_reads calls) data
  | Ck_struct_element calls => is_object id (StructElement_reads calls)
  | Ck_namespace calls => is_object id (Namespace_reads calls)
  | Ck_metadata data calls => is_stream id (Metadata_reads calls) data
  | Ck_image_xobject data calls => is_stream id (ImageXObject_reads calls) data
  | Ck_form_xobject data calls => is_stream id (FormXObject_reads calls) data
  | Ck_ext_graphics calls => is_object id (ExtGraphicsState_reads calls)
  | Ck_type1_font calls => is_object id (Type1Font_reads calls)
  | Ck_type3_font calls => is_object id (Type3Font_reads calls)
  | Ck_type0_font calls => is_object id (Type0Font_reads calls)
  | Ck_cid_font calls => is_object id (CidFont_reads calls)
  | Ck_font_descriptor calls => is_object id (fd_reads calls)
  | Ck_cmap data calls => is_stream id (Cmap_reads calls) data
  | Ck_color_space calls => is_object id (cs_reads calls)
  | Ck_function_shading calls => is_object id (FunctionShading_reads calls)
  | Ck_stream_shading data calls => is_stream id (StreamShading_reads calls) data
  | Ck_tiling_pattern data calls => is_stream id (TilingPattern_reads calls) data
  | Ck_shading_pattern calls => is_object id (ShadingPattern_reads calls)
  | Ck_icc_profile data calls => is_stream id (icc_doc calls) data
  | Ck_sampled_function data calls => is_stream id (SampledFunction_reads calls) data
  | Ck_exponential_function calls => is_object id (ExponentialFunction_reads calls)
  | Ck_stitching_function calls => is_object id (StitchingFunction_reads calls)
  | Ck_post_script_function data calls => is_stream id (PostScriptFunction_reads calls) data
  | Ck_name_tree calls => is_object id (is_name_tree calls)
  | Ck_number_tree calls => is_object id (is_number_tree calls)
  | Ck_annotation calls => is_object id (Annotation_reads calls)
  | Ck_form_field calls => is_object id (Field_reads calls)
  | Ck_signature_field_lock calls => is_object id (SignatureFieldLock_reads calls)
  | Ck_signature_seed_value calls => is_object id (SignatureSeedValue_reads calls)
  | Ck_stream data calls => is_stream id (Stream_reads calls) data
  end.
(** The arguments are within the ranges of the writers' theorems. *)
Definition chunk_call_ok (c : chunk_call) : bool :=
  match c with
  | Ck_pages calls => Pages_ok calls
  | Ck_page calls => Page_ok calls
  | Ck_outline calls => Outline_ok calls
  | Ck_outline_item calls => OutlineItem_ok calls
  | Ck_destination calls => Destination_ok calls
  | Ck_destinations calls => dict_ok Destination_ok calls
  | Ck_file_spec calls => FileSpec_ok calls
  | Ck_embedded_file _ calls => EmbeddedFile_ok calls
  | Ck_struct_element calls => StructElement_ok calls
  | Ck_namespace calls => Namespace_ok calls
  | Ck_metadata _ calls => Metadata_ok calls
  | Ck_image_xobject _ calls => ImageXObject_ok calls
  | Ck_form_xobject _ calls => FormXObject_ok calls
  | Ck_ext_graphics calls => ExtGraphicsState_ok calls
  | Ck_type1_font calls => Type1Font_ok calls
  | Ck_type3_font calls => Type3Font_ok calls
  | Ck_type0_font calls => Type0Font_ok calls
  | Ck_cid_font calls => CidFont_ok calls
  | Ck_font_descriptor calls => fd_ok calls
  | Ck_cmap _ calls => Cmap_ok calls
  | Ck_color_space calls => cs_ok calls
  | Ck_function_shading calls => FunctionShading_ok calls
  | Ck_stream_shading _ calls => StreamShading_ok calls
  | Ck_tiling_pattern _ calls => TilingPattern_ok calls
  | Ck_shading_pattern calls => ShadingPattern_ok calls
  | Ck_icc_profile _ calls => forallb (stream_ok Stream_call_ok icc_ok) calls
  | Ck_sampled_function _ calls => SampledFunction_ok calls
  | Ck_exponential_function calls => ExponentialFunction_ok calls
  | Ck_stitching_function calls => StitchingFunction_ok calls
  | Ck_post_script_function _ calls => PostScriptFunction_ok calls
  | Ck_name_tree calls => forallb name_tree_ok calls
  | Ck_number_tree calls => forallb number_tree_ok calls
  | Ck_annotation calls => Annotation_ok calls
  | Ck_form_field calls => Field_ok calls
  | Ck_signature_field_lock calls => SignatureFieldLock_ok calls
  | Ck_signature_seed_value calls => SignatureSeedValue_ok calls
  | Ck_stream _ calls => Stream_ok calls
  end.
(** The calls that do not panic (color spaces: C40; ICC profiles: C40, C44). *)
Definition chunk_call_allowed (c : chunk_call) : Prop :=
  match c with
  | Ck_pages _ => True
  | Ck_page calls => Page_allowed calls
  | Ck_outline calls => Outline_allowed calls
  | Ck_outline_item _ => True
  | Ck_destination _ => True
  | Ck_destinations _ => True
  | Ck_file_spec _ => True
  | Ck_embedded_file _ calls => EmbeddedFile_allowed calls
  | Ck_struct_element _ => True
  | Ck_namespace _ => True
  | Ck_metadata _ calls => Metadata_allowed calls
  | Ck_image_xobject _ calls => ImageXObject_allowed calls
  | Ck_form_xobject _ calls => FormXObject_allowed calls
  | Ck_ext_graphics _ => True
  | Ck_type1_font _ => True
  | Ck_type3_font _ => True
  | Ck_type0_font _ => True
  | Ck_cid_font _ => True
  | Ck_font_descriptor _ => True
  | Ck_cmap _ calls => Cmap_allowed calls
  | Ck_color_space calls => cs_allowed calls
  | Ck_function_shading calls => FunctionShading_allowed calls
  | Ck_stream_shading _ calls => StreamShading_allowed calls
  | Ck_tiling_pattern _ calls => TilingPattern_allowed calls
  | Ck_shading_pattern calls => ShadingPattern_allowed calls
  | Ck_icc_profile _ calls => Forall (stream_allowed Stream_call_allowed icc_allowed) calls
  | Ck_sampled_function _ calls => SampledFunction_allowed calls
  | Ck_exponential_function _ => True
  | Ck_stitching_function _ => True
  | Ck_post_script_function _ calls => PostScriptFunction_allowed calls
  | Ck_name_tree _ => True
  | Ck_number_tree _ => True
  | Ck_annotation _ => True
  | Ck_form_field _ => True
  | Ck_signature_field_lock _ => True
  | Ck_signature_seed_value _ => True
  | Ck_stream _ calls => Stream_allowed calls
  end.

Definition doc_op_ok (op : doc_op) : Prop :=
  match op with
  | DocTyped id c => id_ok id = true /\ chunk_call_ok c = true
  | DocCatalog id calls => id_ok id = true /\ Catalog_ok calls = true
  | DocInfo id calls => id_ok id = true /\ DocumentInfo_ok calls = true
  | DocOther op => op_typed op
  end.
(** The ids under which something is written. *)
Definition doc_op_ids (op : doc_op) : list Z :=
  match op with
  | DocTyped id _ | DocCatalog id _ | DocInfo id _ => [id]
  | DocOther op => map fst (op_items op)
  end.
Definition doc_ids (ops : list doc_op) : list Z := flat_map doc_op_ids ops.
Definition doc_op_reads (op : doc_op) (resolved : Z -> option indirect) : Prop :=
  match op with
  | DocTyped id c => exists i, resolved id = Some i /\ chunk_call_reads id c i
  | DocCatalog id calls => exists i, resolved id = Some i /\ is_object id (Catalog_reads calls) i
  | DocInfo id calls => exists i, resolved id = Some i /\ is_object id (DocumentInfo_reads calls) i
  | DocOther op => forall it, In it (op_items op) -> body_readable (snd it) = true ->
      exists i, resolved (fst it) = Some i /\ item_means it i
  end.
(** The last catalog. *)
Definition doc_catalog (ops : list doc_op) : option Z :=
  fold_left (fun a op => match op with DocCatalog id _ | DocOther (PdfCatalog id _) => Some id | _ => a end) ops None.
