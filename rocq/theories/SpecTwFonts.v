(** Specification of typed writers: fonts: the entries of every method, from its signature and documentation,
    and the conditions on its arguments. *)

From Coq Require Import ZArith List Bool.
From Verif Require ModelContent ModelCmap.
From Verif Require Import Bytes ModelFloat ModelBuf ModelObject ModelColor ModelSmall ModelPdf ModelTw ModelEnums ModelRoles ModelTwArgs ModelTwFiles ModelTwGraphics ModelTwAnnot ModelTwForms ModelTwAttr ModelTwXObj ModelTwFonts SpecLex SpecObj SpecText SpecMeans SpecPdf SpecTyped SpecColor SpecSmall SpecTw SpecEnums SpecRoles SpecTwArgs SpecTwFiles SpecTwGraphics SpecTwAnnot SpecTwForms SpecTwAttr SpecTwXObj.
Import ListNotations.
Local Open Scope Z_scope.

(** ** Encoding *)

(** Written by the constructor. *)
Definition Encoding_head : list entry_spec := [(lit "Type", is_name (lit "Encoding"))].
Definition Encoding_doc (c : Encoding_call) : list entry_spec :=
  match c with
  | Encoding_base_encoding name => [(lit "BaseEncoding", is_name name)]
  | Encoding_differences x => [(lit "Differences", is_differences x)]
  end.
Definition Encoding_call_ok (c : Encoding_call) : bool :=
  match c with
  | Encoding_base_encoding name => name_ok name
  | Encoding_differences x => forallb diff_ok x
  end.
Definition Encoding_reads (cs : Encoding_calls) : val -> Prop := writer_reads Encoding_head Encoding_doc cs.
Definition Encoding_ok (cs : Encoding_calls) : bool := forallb (raw_ok Encoding_call_ok) cs.

(** A sample: every method once. *)
Definition Encoding_sample : Encoding_calls := [
  Typed (Encoding_base_encoding (lit "a b")); Typed (Encoding_differences [(65, [lit "alpha"])]); Raw (lit "Extra") (OArray [OPrim (PBool true)])].

(** ** Type1Font *)

(** Written by the constructor. *)
Definition Type1Font_head : list entry_spec := [(lit "Type", is_name (lit "Font")); (lit "Subtype", is_name (lit "Type1"))].
Definition Type1Font_doc (c : Type1Font_call) : list entry_spec :=
  match c with
  | Type1Font_name name => [(lit "Name", is_name name)]
  | Type1Font_base_font name => [(lit "BaseFont", is_name name)]
  | Type1Font_first_char first => [(lit "FirstChar", is_int first)]
  | Type1Font_last_char last => [(lit "LastChar", is_int last)]
  | Type1Font_widths widths => [(lit "Widths", is_reals widths)]
  | Type1Font_font_descriptor id => [(lit "FontDescriptor", is_ref id)]
  | Type1Font_encoding_predefined encoding => [(lit "Encoding", is_name encoding)]
  | Type1Font_encoding_custom calls => [(lit "Encoding", Encoding_reads calls)]
  | Type1Font_to_unicode id => [(lit "ToUnicode", is_ref id)]
  end.
Definition Type1Font_call_ok (c : Type1Font_call) : bool :=
  match c with
  | Type1Font_name name => name_ok name
  | Type1Font_base_font name => name_ok name
  | Type1Font_first_char first => u8_ok first
  | Type1Font_last_char last => u8_ok last
  | Type1Font_widths widths => forallb real_ok widths
  | Type1Font_font_descriptor id => ref_ok id
  | Type1Font_encoding_predefined encoding => name_ok encoding
  | Type1Font_encoding_custom calls => Encoding_ok calls
  | Type1Font_to_unicode id => ref_ok id
  end.
Definition Type1Font_reads (cs : Type1Font_calls) : val -> Prop := writer_reads Type1Font_head Type1Font_doc cs.
Definition Type1Font_ok (cs : Type1Font_calls) : bool := forallb (raw_ok Type1Font_call_ok) cs.

(** A sample: every method once. *)
Definition Type1Font_sample : Type1Font_calls := [
  Typed (Type1Font_name (lit "a b")); Typed (Type1Font_base_font (lit "a b")); Typed (Type1Font_first_char 12); Typed (Type1Font_last_char 12); Typed (Type1Font_widths [(FFin false 8388608 (-23)); f32_zero]); Typed (Type1Font_font_descriptor 7); Typed (Type1Font_encoding_predefined (lit "a b")); Typed (Type1Font_encoding_custom Encoding_sample); Typed (Type1Font_to_unicode 7); Raw (lit "Extra") (OArray [OPrim (PBool true)])].

(** ** Type3Font *)

(** Written by the constructor. *)
Definition Type3Font_head : list entry_spec := [(lit "Type", is_name (lit "Font")); (lit "Subtype", is_name (lit "Type3"))].
Definition Type3Font_doc (c : Type3Font_call) : list entry_spec :=
  match c with
  | Type3Font_name name => [(lit "Name", is_name name)]
  | Type3Font_bbox bbox => [(lit "FontBBox", is_rect bbox)]
  | Type3Font_matrix matrix => [(lit "FontMatrix", is_reals (in_order6 matrix))]
  | Type3Font_char_procs items => [(lit "CharProcs", is_dict_of is_ref items)]
  | Type3Font_encoding_predefined encoding => [(lit "Encoding", is_name encoding)]
  | Type3Font_encoding_custom calls => [(lit "Encoding", Encoding_reads calls)]
  | Type3Font_first_char first => [(lit "FirstChar", is_int first)]
  | Type3Font_last_char last => [(lit "LastChar", is_int last)]
  | Type3Font_widths widths => [(lit "Widths", is_reals widths)]
  | Type3Font_font_descriptor id => [(lit "FontDescriptor", is_ref id)]
  | Type3Font_resources calls => [(lit "Resources", Resources_reads calls)]
  | Type3Font_to_unicode id => [(lit "ToUnicode", is_ref id)]
  end.
Definition Type3Font_call_ok (c : Type3Font_call) : bool :=
  match c with
  | Type3Font_name name => name_ok name
  | Type3Font_bbox bbox => rect_ok bbox
  | Type3Font_matrix matrix => ok6 matrix
  | Type3Font_char_procs items => dict_ok ref_ok items
  | Type3Font_encoding_predefined encoding => name_ok encoding
  | Type3Font_encoding_custom calls => Encoding_ok calls
  | Type3Font_first_char first => u8_ok first
  | Type3Font_last_char last => u8_ok last
  | Type3Font_widths widths => forallb real_ok widths
  | Type3Font_font_descriptor id => ref_ok id
  | Type3Font_resources calls => Resources_ok calls
  | Type3Font_to_unicode id => ref_ok id
  end.
Definition Type3Font_reads (cs : Type3Font_calls) : val -> Prop := writer_reads Type3Font_head Type3Font_doc cs.
Definition Type3Font_ok (cs : Type3Font_calls) : bool := forallb (raw_ok Type3Font_call_ok) cs.

(** A sample: every method once. *)
Definition Type3Font_sample : Type3Font_calls := [
  Typed (Type3Font_name (lit "a b")); Typed (Type3Font_bbox (mkRect f32_zero f32_zero (FFin false 8388608 (-23)) (FFin false 8388608 (-23)))); Typed (Type3Font_matrix (((FFin false 8388608 (-23)), f32_zero, f32_zero), ((FFin false 8388608 (-23)), f32_zero, f32_zero))); Typed (Type3Font_char_procs [(lit "a", 3)]); Typed (Type3Font_encoding_predefined (lit "a b")); Typed (Type3Font_encoding_custom Encoding_sample); Typed (Type3Font_first_char 12); Typed (Type3Font_last_char 12); Typed (Type3Font_widths [(FFin false 8388608 (-23)); f32_zero]); Typed (Type3Font_font_descriptor 7); Typed (Type3Font_resources Resources_sample); Typed (Type3Font_to_unicode 7); Raw (lit "Extra") (OArray [OPrim (PBool true)])].

(** ** Type0Font *)

(** Written by the constructor. *)
Definition Type0Font_head : list entry_spec := [(lit "Type", is_name (lit "Font")); (lit "Subtype", is_name (lit "Type0"))].
Definition Type0Font_doc (c : Type0Font_call) : list entry_spec :=
  match c with
  | Type0Font_base_font name => [(lit "BaseFont", is_name name)]
  | Type0Font_encoding_predefined encoding => [(lit "Encoding", is_name encoding)]
  | Type0Font_encoding_cmap cmap => [(lit "Encoding", is_ref cmap)]
  | Type0Font_descendant_font cid_font => [(lit "DescendantFonts", is_array [is_ref cid_font])]
  | Type0Font_to_unicode cmap => [(lit "ToUnicode", is_ref cmap)]
  end.
Definition Type0Font_call_ok (c : Type0Font_call) : bool :=
  match c with
  | Type0Font_base_font name => name_ok name
  | Type0Font_encoding_predefined encoding => name_ok encoding
  | Type0Font_encoding_cmap cmap => ref_ok cmap
  | Type0Font_descendant_font cid_font => ref_ok cid_font
  | Type0Font_to_unicode cmap => ref_ok cmap
  end.
Definition Type0Font_reads (cs : Type0Font_calls) : val -> Prop := writer_reads Type0Font_head Type0Font_doc cs.
Definition Type0Font_ok (cs : Type0Font_calls) : bool := forallb (raw_ok Type0Font_call_ok) cs.

(** A sample: every method once. *)
Definition Type0Font_sample : Type0Font_calls := [
  Typed (Type0Font_base_font (lit "a b")); Typed (Type0Font_encoding_predefined (lit "a b")); Typed (Type0Font_encoding_cmap 7); Typed (Type0Font_descendant_font 7); Typed (Type0Font_to_unicode 7); Raw (lit "Extra") (OArray [OPrim (PBool true)])].

(** ** CidFont *)

(** Written by the constructor. *)
Definition CidFont_head : list entry_spec := [(lit "Type", is_name (lit "Font"))].
Definition CidFont_doc (c : CidFont_call) : list entry_spec :=
  match c with
  | CidFont_subtype subtype => [(lit "Subtype", is_CidFontType subtype)]
  | CidFont_base_font name => [(lit "BaseFont", is_name name)]
  | CidFont_system_info info => [(lit "CIDSystemInfo", is_system_info info)]
  | CidFont_font_descriptor id => [(lit "FontDescriptor", is_ref id)]
  | CidFont_default_width width => [(lit "DW", is_real width)]
  | CidFont_widths x => [(lit "W", is_widths x)]
  | CidFont_cid_to_gid_map_predefined name => [(lit "CIDToGIDMap", is_name name)]
  | CidFont_cid_to_gid_map_stream stream => [(lit "CIDToGIDMap", is_ref stream)]
  end.
Definition CidFont_call_ok (c : CidFont_call) : bool :=
  match c with
  | CidFont_subtype _ => true
  | CidFont_base_font name => name_ok name
  | CidFont_system_info info => system_info_ok info
  | CidFont_font_descriptor id => ref_ok id
  | CidFont_default_width width => real_ok width
  | CidFont_widths x => forallb width_ok x
  | CidFont_cid_to_gid_map_predefined name => name_ok name
  | CidFont_cid_to_gid_map_stream stream => ref_ok stream
  end.
Definition CidFont_reads (cs : CidFont_calls) : val -> Prop := writer_reads CidFont_head CidFont_doc cs.
Definition CidFont_ok (cs : CidFont_calls) : bool := forallb (raw_ok CidFont_call_ok) cs.

(** A sample: every method once. *)
Definition CidFont_sample : CidFont_calls := [
  Typed (CidFont_subtype CidFontType_Type2); Typed (CidFont_base_font (lit "a b")); Typed (CidFont_system_info (ModelCmap.mkSystemInfo (lit "Adobe") (lit "Identity") 0)); Typed (CidFont_font_descriptor 7); Typed (CidFont_default_width (FFin false 8388608 (-23))); Typed (CidFont_widths [WSame 3 9 (FFin false 8388608 (-23))]); Typed (CidFont_cid_to_gid_map_predefined (lit "a b")); Typed (CidFont_cid_to_gid_map_stream 7); Raw (lit "Extra") (OArray [OPrim (PBool true)])].

(** ** Cmap *)

(** Written by the constructor. *)
Definition Cmap_head : list entry_spec := [(lit "Type", is_name (lit "CMap"))].
Definition Cmap_doc (c : Cmap_call) : list entry_spec :=
  match c with
  | Cmap_name name => [(lit "CMapName", is_name name)]
  | Cmap_system_info info => [(lit "CIDSystemInfo", is_system_info info)]
  | Cmap_writing_mode mode => [(lit "WMode", is_WMode mode)]
  | Cmap_use_cmap_stream cmap => [(lit "UseCMap", is_ref cmap)]
  | Cmap_use_cmap_predefined name => [(lit "UseCMap", is_name name)]
  end.
Definition Cmap_call_ok (c : Cmap_call) : bool :=
  match c with
  | Cmap_name name => name_ok name
  | Cmap_system_info info => system_info_ok info
  | Cmap_writing_mode _ => true
  | Cmap_use_cmap_stream cmap => ref_ok cmap
  | Cmap_use_cmap_predefined name => name_ok name
  end.
(** The calls that do not panic. *)
Definition Cmap_call_allowed (c : Cmap_call) : Prop :=
  match c with
  | Cmap_name _ => True
  | Cmap_system_info _ => True
  | Cmap_writing_mode _ => True
  | Cmap_use_cmap_stream _ => True
  | Cmap_use_cmap_predefined _ => True
  end.
Definition Cmap_reads (cs : Cmap_calls) : list entry_spec := Cmap_head ++ flat_map (stream_doc Stream_doc Cmap_doc) cs.
Definition Cmap_ok (cs : Cmap_calls) : bool := forallb (stream_ok Stream_call_ok Cmap_call_ok) cs.
Definition Cmap_allowed (cs : Cmap_calls) : Prop := Forall (stream_allowed Stream_call_allowed Cmap_call_allowed) cs.

(** A sample: every method once. *)
Definition Cmap_sample : Cmap_calls := [
  STyped (Cmap_name (lit "a b")); STyped (Cmap_system_info (ModelCmap.mkSystemInfo (lit "Adobe") (lit "Identity") 0)); STyped (Cmap_writing_mode ModelCmap.WVertical); STyped (Cmap_use_cmap_stream 7); STyped (Cmap_use_cmap_predefined (lit "a b")); SStream (Stream_filter FlateDecode); SRaw (lit "Extra") (OPrim (PInt 5))].
