(** Specification of typed writers: structure elements and attributes: the entries of every method, from its signature and documentation,
    and the conditions on its arguments. *)

From Coq Require Import ZArith List Bool.
From Verif Require ModelContent ModelCmap.
From Verif Require Import Bytes ModelFloat ModelBuf ModelObject ModelColor ModelSmall ModelPdf ModelTw ModelEnums ModelRoles ModelTwArgs ModelTwFiles ModelTwGraphics ModelTwAnnot ModelTwForms ModelTwAttr SpecLex SpecObj SpecText SpecMeans SpecPdf SpecTyped SpecColor SpecSmall SpecTw SpecEnums SpecRoles SpecTwArgs SpecTwFiles SpecTwGraphics SpecTwAnnot SpecTwForms.
Import ListNotations.
Local Open Scope Z_scope.

(** ** UserProperty *)

(** Written by the constructor: nothing. *)
Definition UserProperty_head : list entry_spec := [].
Definition UserProperty_doc (c : UserProperty_call) : list entry_spec :=
  match c with
  | UserProperty_name name => [(lit "N", is_textlike name)]
  | UserProperty_value o => [(lit "V", means o)]
  | UserProperty_format format => [(lit "F", is_textlike format)]
  | UserProperty_hidden hide => [(lit "H", is_bool hide)]
  end.
Definition UserProperty_call_ok (c : UserProperty_call) : bool :=
  match c with
  | UserProperty_name name => textlike_ok name
  | UserProperty_value o => obj_arg_ok o
  | UserProperty_format format => textlike_ok format
  | UserProperty_hidden _ => true
  end.
Definition UserProperty_reads (cs : UserProperty_calls) : val -> Prop := writer_reads UserProperty_head UserProperty_doc cs.
Definition UserProperty_ok (cs : UserProperty_calls) : bool := forallb (raw_ok UserProperty_call_ok) cs.

(** A sample: every method once. *)
Definition UserProperty_sample : UserProperty_calls := [
  Typed (UserProperty_name (TextPlain [97; 128512])); Typed (UserProperty_value (OArray [OPrim (PInt 1)])); Typed (UserProperty_format (TextPlain [97; 128512])); Typed (UserProperty_hidden true); Raw (lit "Extra") (OArray [OPrim (PBool true)])].

(** ** LayoutAttributes *)

(** Written by the constructor. *)
Definition LayoutAttributes_head : list entry_spec := [(lit "O", is_AttributeOwner AttributeOwner_Layout false)].
Definition LayoutAttributes_doc (c : LayoutAttributes_call) : list entry_spec :=
  match c with
  | LayoutAttributes_placement placement => [(lit "Placement", is_Placement placement)]
  | LayoutAttributes_writing_mode mode => [(lit "WritingMode", is_WritingMode mode)]
  | LayoutAttributes_background_color color => [(lit "BackgroundColor", is_reals (in_order3 color))]
  | LayoutAttributes_border_color color => [(lit "BorderColor", is_sides_colors color)]
  | LayoutAttributes_border_style style => [(lit "BorderStyle", is_sides_styles style)]
  | LayoutAttributes_border_thickness thickness => [(lit "BorderThickness", is_sides_reals thickness)]
  | LayoutAttributes_padding padding => [(lit "Padding", is_sides_reals padding)]
  | LayoutAttributes_color color => [(lit "Color", is_reals (in_order3 color))]
  | LayoutAttributes_space_before space => [(lit "SpaceBefore", is_real space)]
  | LayoutAttributes_space_after space => [(lit "SpaceAfter", is_real space)]
  | LayoutAttributes_start_indent indent => [(lit "StartIndent", is_real indent)]
  | LayoutAttributes_end_indent indent => [(lit "EndIndent", is_real indent)]
  | LayoutAttributes_text_indent indent => [(lit "TextIndent", is_real indent)]
  | LayoutAttributes_text_align align => [(lit "TextAlign", is_TextAlign align)]
  | LayoutAttributes_width width => [(lit "Width", is_real width)]
  | LayoutAttributes_height height => [(lit "Height", is_real height)]
  | LayoutAttributes_bbox bbox => [(lit "BBox", is_rect bbox)]
  | LayoutAttributes_block_align align => [(lit "BlockAlign", is_BlockAlign align)]
  | LayoutAttributes_inline_align align => [(lit "InlineAlign", is_InlineAlign align)]
  | LayoutAttributes_table_border_style style => [(lit "TBorderStyle", is_sides_styles style)]
  | LayoutAttributes_table_padding padding => [(lit "TPadding", is_sides_reals padding)]
  | LayoutAttributes_column_count count => [(lit "ColumnCount", is_int count)]
  | LayoutAttributes_column_widths x => [(lit "ColumnWidths", TrackSizes_reads x)]
  | LayoutAttributes_column_gap x => [(lit "ColumnGap", TrackSizes_reads x)]
  | LayoutAttributes_line_height height => [(lit "LineHeight", is_LineHeight height)]
  | LayoutAttributes_baseline_shift shift => [(lit "BaselineShift", is_real shift)]
  | LayoutAttributes_text_position position => [(lit "TextPosition", is_LayoutTextPosition position)]
  | LayoutAttributes_text_decoration_type decoration => [(lit "TextDecorationType", is_TextDecorationType decoration)]
  | LayoutAttributes_text_decoration_color color => [(lit "TextDecorationColor", is_reals (in_order3 color))]
  | LayoutAttributes_text_decoration_thickness thickness => [(lit "TextDecorationThickness", is_real thickness)]
  | LayoutAttributes_glyph_orientation_vertical orientation => [(lit "GlyphOrientationVertical", is_GlyphOrientationVertical orientation)]
  | LayoutAttributes_ruby_align align => [(lit "RubyAlign", is_RubyAlign align)]
  | LayoutAttributes_ruby_position position => [(lit "RubyPosition", is_RubyPosition position)]
  end.
Definition LayoutAttributes_call_ok (c : LayoutAttributes_call) : bool :=
  match c with
  | LayoutAttributes_placement _ => true
  | LayoutAttributes_writing_mode _ => true
  | LayoutAttributes_background_color color => ok3 color
  | LayoutAttributes_border_color color => all_sides ok3 color
  | LayoutAttributes_border_style _ => true
  | LayoutAttributes_border_thickness thickness => all_sides real_ok thickness
  | LayoutAttributes_padding padding => all_sides real_ok padding
  | LayoutAttributes_color color => ok3 color
  | LayoutAttributes_space_before space => real_ok space
  | LayoutAttributes_space_after space => real_ok space
  | LayoutAttributes_start_indent indent => real_ok indent
  | LayoutAttributes_end_indent indent => real_ok indent
  | LayoutAttributes_text_indent indent => real_ok indent
  | LayoutAttributes_text_align _ => true
  | LayoutAttributes_width width => real_ok width
  | LayoutAttributes_height height => real_ok height
  | LayoutAttributes_bbox bbox => rect_ok bbox
  | LayoutAttributes_block_align _ => true
  | LayoutAttributes_inline_align _ => true
  | LayoutAttributes_table_border_style _ => true
  | LayoutAttributes_table_padding padding => all_sides real_ok padding
  | LayoutAttributes_column_count count => in_i32 count
  | LayoutAttributes_column_widths x => TrackSizes_ok x
  | LayoutAttributes_column_gap x => TrackSizes_ok x
  | LayoutAttributes_line_height height => LineHeight_ok height
  | LayoutAttributes_baseline_shift shift => real_ok shift
  | LayoutAttributes_text_position _ => true
  | LayoutAttributes_text_decoration_type _ => true
  | LayoutAttributes_text_decoration_color color => ok3 color
  | LayoutAttributes_text_decoration_thickness thickness => real_ok thickness
  | LayoutAttributes_glyph_orientation_vertical orientation => GlyphOrientationVertical_ok orientation
  | LayoutAttributes_ruby_align _ => true
  | LayoutAttributes_ruby_position _ => true
  end.
Definition LayoutAttributes_reads (cs : LayoutAttributes_calls) : val -> Prop := writer_reads LayoutAttributes_head LayoutAttributes_doc cs.
Definition LayoutAttributes_ok (cs : LayoutAttributes_calls) : bool := forallb (raw_ok LayoutAttributes_call_ok) cs.

(** A sample: every method once. *)
Definition LayoutAttributes_sample : LayoutAttributes_calls := [
  Typed (LayoutAttributes_placement Placement_End); Typed (LayoutAttributes_writing_mode WritingMode_TtbRtl); Typed (LayoutAttributes_background_color (f32_zero, (FFin false 8388608 (-23)), f32_zero)); Typed (LayoutAttributes_border_color (sides_uniform (f32_zero, f32_zero, f32_zero))); Typed (LayoutAttributes_border_style (mkSides BsSolid BsNone BsSolid BsSolid)); Typed (LayoutAttributes_border_thickness (sides_uniform f32_zero)); Typed (LayoutAttributes_padding (sides_uniform f32_zero)); Typed (LayoutAttributes_color (f32_zero, (FFin false 8388608 (-23)), f32_zero)); Typed (LayoutAttributes_space_before (FFin false 8388608 (-23))); Typed (LayoutAttributes_space_after (FFin false 8388608 (-23))); Typed (LayoutAttributes_start_indent (FFin false 8388608 (-23))); Typed (LayoutAttributes_end_indent (FFin false 8388608 (-23))); Typed (LayoutAttributes_text_indent (FFin false 8388608 (-23))); Typed (LayoutAttributes_text_align TextAlign_Justify); Typed (LayoutAttributes_width (FFin false 8388608 (-23))); Typed (LayoutAttributes_height (FFin false 8388608 (-23))); Typed (LayoutAttributes_bbox (mkRect f32_zero f32_zero (FFin false 8388608 (-23)) (FFin false 8388608 (-23)))); Typed (LayoutAttributes_block_align BlockAlign_Justify); Typed (LayoutAttributes_inline_align InlineAlign_End); Typed (LayoutAttributes_table_border_style (mkSides BsSolid BsNone BsSolid BsSolid)); Typed (LayoutAttributes_table_padding (sides_uniform f32_zero)); Typed (LayoutAttributes_column_count (-3)); Typed (LayoutAttributes_column_widths (TrackSizes_individual [f32_zero])); Typed (LayoutAttributes_column_gap (TrackSizes_individual [f32_zero])); Typed (LayoutAttributes_line_height (LineHeight_Custom (FFin false 8388608 (-23)))); Typed (LayoutAttributes_baseline_shift (FFin false 8388608 (-23))); Typed (LayoutAttributes_text_position LayoutTextPosition_Subscript); Typed (LayoutAttributes_text_decoration_type TextDecorationType_LineThrough); Typed (LayoutAttributes_text_decoration_color (f32_zero, (FFin false 8388608 (-23)), f32_zero)); Typed (LayoutAttributes_text_decoration_thickness (FFin false 8388608 (-23))); Typed (LayoutAttributes_glyph_orientation_vertical (GlyphOrientationVertical_Angle 90)); Typed (LayoutAttributes_ruby_align RubyAlign_Distribute); Typed (LayoutAttributes_ruby_position RubyPosition_Inline); Raw (lit "Extra") (OArray [OPrim (PBool true)])].

(** ** ListAttributes *)

(** Written by the constructor. *)
Definition ListAttributes_head : list entry_spec := [(lit "O", is_AttributeOwner AttributeOwner_List false)].
Definition ListAttributes_doc (c : ListAttributes_call) : list entry_spec :=
  match c with
  | ListAttributes_list_numbering numbering => [(lit "ListNumbering", is_ListNumbering numbering)]
  | ListAttributes_continued_list continued => [(lit "ContinuedList", is_bool continued)]
  | ListAttributes_continued_from id => [(lit "ContinuedFrom", is_str id)]
  end.
Definition ListAttributes_call_ok (c : ListAttributes_call) : bool :=
  match c with
  | ListAttributes_list_numbering _ => true
  | ListAttributes_continued_list _ => true
  | ListAttributes_continued_from _ => true
  end.
Definition ListAttributes_reads (cs : ListAttributes_calls) : val -> Prop := writer_reads ListAttributes_head ListAttributes_doc cs.
Definition ListAttributes_ok (cs : ListAttributes_calls) : bool := forallb (raw_ok ListAttributes_call_ok) cs.

(** A sample: every method once. *)
Definition ListAttributes_sample : ListAttributes_calls := [
  Typed (ListAttributes_list_numbering ListNumbering_UpperAlpha); Typed (ListAttributes_continued_list true); Typed (ListAttributes_continued_from (lit "x(y")); Raw (lit "Extra") (OArray [OPrim (PBool true)])].

(** ** FieldAttributes *)

(** Written by the constructor. *)
Definition FieldAttributes_head : list entry_spec := [(lit "O", is_AttributeOwner AttributeOwner_PrintField false)].
Definition FieldAttributes_doc (c : FieldAttributes_call) : list entry_spec :=
  match c with
  | FieldAttributes_role role => [(lit "Role", is_FieldRole role)]
  | FieldAttributes_checked checked pdf2 => [(if pdf2 then lit "Checked" else lit "checked", is_FieldState checked)]
  | FieldAttributes_description desc => [(lit "Desc", is_textlike desc)]
  end.
Definition FieldAttributes_call_ok (c : FieldAttributes_call) : bool :=
  match c with
  | FieldAttributes_role _ => true
  | FieldAttributes_checked _ _ => true
  | FieldAttributes_description desc => textlike_ok desc
  end.
Definition FieldAttributes_reads (cs : FieldAttributes_calls) : val -> Prop := writer_reads FieldAttributes_head FieldAttributes_doc cs.
Definition FieldAttributes_ok (cs : FieldAttributes_calls) : bool := forallb (raw_ok FieldAttributes_call_ok) cs.

(** A sample: every method once. *)
Definition FieldAttributes_sample : FieldAttributes_calls := [
  Typed (FieldAttributes_role FieldRole_ListBox); Typed (FieldAttributes_checked FieldState_Neutral true); Typed (FieldAttributes_description (TextPlain [97; 128512])); Raw (lit "Extra") (OArray [OPrim (PBool true)])].

(** ** TableAttributes *)

(** Written by the constructor. *)
Definition TableAttributes_head : list entry_spec := [(lit "O", is_AttributeOwner AttributeOwner_Table false)].
Definition TableAttributes_doc (c : TableAttributes_call) : list entry_spec :=
  match c with
  | TableAttributes_row_span row_span => [(lit "RowSpan", is_int row_span)]
  | TableAttributes_col_span col_span => [(lit "ColSpan", is_int col_span)]
  | TableAttributes_headers items => [(lit "Headers", is_array_of is_str items)]
  | TableAttributes_scope scope => [(lit "Scope", is_TableHeaderScope scope)]
  | TableAttributes_summary summary => [(lit "Summary", is_textlike summary)]
  | TableAttributes_short short => [(lit "Short", is_textlike short)]
  end.
Definition TableAttributes_call_ok (c : TableAttributes_call) : bool :=
  match c with
  | TableAttributes_row_span row_span => in_i32 row_span
  | TableAttributes_col_span col_span => in_i32 col_span
  | TableAttributes_headers _ => true
  | TableAttributes_scope _ => true
  | TableAttributes_summary summary => textlike_ok summary
  | TableAttributes_short short => textlike_ok short
  end.
Definition TableAttributes_reads (cs : TableAttributes_calls) : val -> Prop := writer_reads TableAttributes_head TableAttributes_doc cs.
Definition TableAttributes_ok (cs : TableAttributes_calls) : bool := forallb (raw_ok TableAttributes_call_ok) cs.

(** A sample: every method once. *)
Definition TableAttributes_sample : TableAttributes_calls := [
  Typed (TableAttributes_row_span (-3)); Typed (TableAttributes_col_span (-3)); Typed (TableAttributes_headers [lit "A"; lit "B"]); Typed (TableAttributes_scope TableHeaderScope_Both); Typed (TableAttributes_summary (TextPlain [97; 128512])); Typed (TableAttributes_short (TextPlain [97; 128512])); Raw (lit "Extra") (OArray [OPrim (PBool true)])].

(** ** ArtifactAttributes *)

(** Written by the constructor. *)
Definition ArtifactAttributes_head : list entry_spec := [(lit "O", is_AttributeOwner AttributeOwner_Artifact true)].
Definition ArtifactAttributes_doc (c : ArtifactAttributes_call) : list entry_spec :=
  match c with
  | ArtifactAttributes_artifact_type artifact_type => [(lit "Type", is_ArtifactType artifact_type)]
  | ArtifactAttributes_bbox bbox => [(lit "BBox", is_rect bbox)]
  | ArtifactAttributes_subtype subtype => [(lit "Subtype", is_ArtifactSubtype subtype)]
  end.
Definition ArtifactAttributes_call_ok (c : ArtifactAttributes_call) : bool :=
  match c with
  | ArtifactAttributes_artifact_type _ => true
  | ArtifactAttributes_bbox bbox => rect_ok bbox
  | ArtifactAttributes_subtype subtype => ArtifactSubtype_ok subtype
  end.
Definition ArtifactAttributes_reads (cs : ArtifactAttributes_calls) : val -> Prop := writer_reads ArtifactAttributes_head ArtifactAttributes_doc cs.
Definition ArtifactAttributes_ok (cs : ArtifactAttributes_calls) : bool := forallb (raw_ok ArtifactAttributes_call_ok) cs.

(** A sample: every method once. *)
Definition ArtifactAttributes_sample : ArtifactAttributes_calls := [
  Typed (ArtifactAttributes_artifact_type ArtifactType_Inline); Typed (ArtifactAttributes_bbox (mkRect f32_zero f32_zero (FFin false 8388608 (-23)) (FFin false 8388608 (-23)))); Typed (ArtifactAttributes_subtype (ArtifactSubtype_Custom (lit "Zz"))); Raw (lit "Extra") (OArray [OPrim (PBool true)])].

(** ** FENoteAttributes *)

(** Written by the constructor. *)
Definition FENoteAttributes_head : list entry_spec := [(lit "O", is_AttributeOwner AttributeOwner_FENote true)].
Definition FENoteAttributes_doc (c : FENoteAttributes_call) : list entry_spec :=
  match c with
  | FENoteAttributes_note_type note_type => [(lit "NoteType", is_NoteType note_type)]
  end.
Definition FENoteAttributes_call_ok (c : FENoteAttributes_call) : bool :=
  match c with
  | FENoteAttributes_note_type _ => true
  end.
Definition FENoteAttributes_reads (cs : FENoteAttributes_calls) : val -> Prop := writer_reads FENoteAttributes_head FENoteAttributes_doc cs.
Definition FENoteAttributes_ok (cs : FENoteAttributes_calls) : bool := forallb (raw_ok FENoteAttributes_call_ok) cs.

(** A sample: every method once. *)
Definition FENoteAttributes_sample : FENoteAttributes_calls := [
  Typed (FENoteAttributes_note_type NoteType_None); Raw (lit "Extra") (OArray [OPrim (PBool true)])].

(** ** Attributes *)

(** Written by the constructor: nothing. *)
Definition Attributes_head : list entry_spec := [].
Definition Attributes_doc (c : Attributes_call) : list entry_spec :=
  match c with
  | Attributes_owner owner iso32000_2_2020 => [(lit "O", is_AttributeOwner owner iso32000_2_2020)]
  | Attributes_user properties => [(lit "O", is_AttributeOwner AttributeOwner_User false); (lit "P", is_array_of UserProperty_reads properties)]
  | Attributes_layout calls => writer_doc LayoutAttributes_head LayoutAttributes_doc calls   (* the calls on the converted writer that follow *)
  | Attributes_list calls => writer_doc ListAttributes_head ListAttributes_doc calls   (* the calls on the converted writer that follow *)
  | Attributes_field calls => writer_doc FieldAttributes_head FieldAttributes_doc calls   (* the calls on the converted writer that follow *)
  | Attributes_table calls => writer_doc TableAttributes_head TableAttributes_doc calls   (* the calls on the converted writer that follow *)
  | Attributes_artifact calls => writer_doc ArtifactAttributes_head ArtifactAttributes_doc calls   (* the calls on the converted writer that follow *)
  | Attributes_note calls => writer_doc FENoteAttributes_head FENoteAttributes_doc calls   (* the calls on the converted writer that follow *)
  | Attributes_namespace ns entries => (lit "O", is_AttributeOwner AttributeOwner_NSO true) :: (lit "NS", is_ref ns) :: map (fun e => (fst e, means (snd e))) entries
  end.
Definition Attributes_call_ok (c : Attributes_call) : bool :=
  match c with
  | Attributes_owner _ _ => true
  | Attributes_user properties => forallb UserProperty_ok properties
  | Attributes_layout calls => LayoutAttributes_ok calls
  | Attributes_list calls => ListAttributes_ok calls
  | Attributes_field calls => FieldAttributes_ok calls
  | Attributes_table calls => TableAttributes_ok calls
  | Attributes_artifact calls => ArtifactAttributes_ok calls
  | Attributes_note calls => FENoteAttributes_ok calls
  | Attributes_namespace ns entries => ref_ok ns && obj_arg_ok (ODict entries)
  end.
Definition Attributes_reads (cs : Attributes_calls) : val -> Prop := writer_reads Attributes_head Attributes_doc cs.
Definition Attributes_ok (cs : Attributes_calls) : bool := forallb (raw_ok Attributes_call_ok) cs.

(** A sample: every method once. *)
Definition Attributes_sample : Attributes_calls := [
  Typed (Attributes_owner AttributeOwner_Css2 true); Typed (Attributes_user [UserProperty_sample; []]); Typed (Attributes_layout LayoutAttributes_sample); Typed (Attributes_list ListAttributes_sample); Typed (Attributes_field FieldAttributes_sample); Typed (Attributes_table TableAttributes_sample); Typed (Attributes_artifact ArtifactAttributes_sample); Typed (Attributes_note FENoteAttributes_sample); Typed (Attributes_namespace 7 [(lit "F1", OPrim (PRef 9))]); Raw (lit "Extra") (OArray [OPrim (PBool true)])].

(** ** MarkedRef *)

(** Written by the constructor. *)
Definition MarkedRef_head : list entry_spec := [(lit "Type", is_name (lit "MCR"))].
Definition MarkedRef_doc (c : MarkedRef_call) : list entry_spec :=
  match c with
  | MarkedRef_page page => [(lit "Pg", is_ref page)]
  | MarkedRef_stream stream => [(lit "Stm", is_ref stream)]
  | MarkedRef_stream_owner owner => [(lit "StmOwn", is_ref owner)]
  | MarkedRef_marked_content_id id => [(lit "MCID", is_int id)]
  end.
Definition MarkedRef_call_ok (c : MarkedRef_call) : bool :=
  match c with
  | MarkedRef_page page => ref_ok page
  | MarkedRef_stream stream => ref_ok stream
  | MarkedRef_stream_owner owner => ref_ok owner
  | MarkedRef_marked_content_id id => in_i32 id
  end.
Definition MarkedRef_reads (cs : MarkedRef_calls) : val -> Prop := writer_reads MarkedRef_head MarkedRef_doc cs.
Definition MarkedRef_ok (cs : MarkedRef_calls) : bool := forallb (raw_ok MarkedRef_call_ok) cs.

(** A sample: every method once. *)
Definition MarkedRef_sample : MarkedRef_calls := [
  Typed (MarkedRef_page 7); Typed (MarkedRef_stream 7); Typed (MarkedRef_stream_owner 7); Typed (MarkedRef_marked_content_id (-3)); Raw (lit "Extra") (OArray [OPrim (PBool true)])].

(** ** ObjectRef *)

(** Written by the constructor. *)
Definition ObjectRef_head : list entry_spec := [(lit "Type", is_name (lit "OBJR"))].
Definition ObjectRef_doc (c : ObjectRef_call) : list entry_spec :=
  match c with
  | ObjectRef_page page => [(lit "Pg", is_ref page)]
  | ObjectRef_object obj => [(lit "Obj", is_ref obj)]
  end.
Definition ObjectRef_call_ok (c : ObjectRef_call) : bool :=
  match c with
  | ObjectRef_page page => ref_ok page
  | ObjectRef_object obj => ref_ok obj
  end.
Definition ObjectRef_reads (cs : ObjectRef_calls) : val -> Prop := writer_reads ObjectRef_head ObjectRef_doc cs.
Definition ObjectRef_ok (cs : ObjectRef_calls) : bool := forallb (raw_ok ObjectRef_call_ok) cs.

(** A sample: every method once. *)
Definition ObjectRef_sample : ObjectRef_calls := [
  Typed (ObjectRef_page 7); Typed (ObjectRef_object 7); Raw (lit "Extra") (OArray [OPrim (PBool true)])].

(** ** StructChildren *)

Definition StructChildren_doc (c : StructChildren_call) : list (val -> Prop) :=
  match c with
  | StructChildren_struct_element id => [is_ref id]
  | StructChildren_marked_content_id id => [is_int id]
  | StructChildren_marked_content_ref calls => [MarkedRef_reads calls]
  | StructChildren_object_ref calls => [ObjectRef_reads calls]
  end.
Definition StructChildren_call_ok (c : StructChildren_call) : bool :=
  match c with
  | StructChildren_struct_element id => ref_ok id
  | StructChildren_marked_content_id id => in_i32 id
  | StructChildren_marked_content_ref calls => MarkedRef_ok calls
  | StructChildren_object_ref calls => ObjectRef_ok calls
  end.
Definition StructChildren_reads (cs : StructChildren_calls) : val -> Prop := array_reads StructChildren_doc cs.
Definition StructChildren_ok (cs : StructChildren_calls) : bool := forallb (item_ok StructChildren_call_ok) cs.

(** A sample: every method once. *)
Definition StructChildren_sample : StructChildren_calls := [
  TypedItem (StructChildren_struct_element 7); TypedItem (StructChildren_marked_content_id (-3)); TypedItem (StructChildren_marked_content_ref MarkedRef_sample); TypedItem (StructChildren_object_ref ObjectRef_sample); RawItem (OPrim (PInt 5))].

(** ** StructElement *)

(** Written by the constructor. *)
Definition StructElement_head : list entry_spec := [(lit "Type", is_name (lit "StructElem"))].
Definition StructElement_doc (c : StructElement_call) : list entry_spec :=
  match c with
  | StructElement_kind role => [(lit "S", is_StructRole role)]
  | StructElement_kind_2 role pdf_2_ns => [(lit "S", is_StructRole2 role); (lit "NS", is_ref pdf_2_ns)]
  | StructElement_custom_kind name => [(lit "S", is_name name)]
  | StructElement_parent parent => [(lit "P", is_ref parent)]
  | StructElement_id id => [(lit "ID", is_str id)]
  | StructElement_refs refs_ => [(lit "Ref", is_refs refs_)]
  | StructElement_page page => [(lit "Pg", is_ref page)]
  | StructElement_child id => [(lit "K", is_ref id)]
  | StructElement_marked_content_child calls => [(lit "K", MarkedRef_reads calls)]
  | StructElement_object_child calls => [(lit "K", ObjectRef_reads calls)]
  | StructElement_children calls => [(lit "K", StructChildren_reads calls)]
  | StructElement_attributes items => [(lit "A", is_array_of Attributes_reads items)]
  | StructElement_attribute_class items => [(lit "C", is_names items)]
  | StructElement_revision revision => [(lit "R", is_int revision)]
  | StructElement_title title => [(lit "T", is_textlike title)]
  | StructElement_lang lang => [(lit "Lang", is_text lang)]
  | StructElement_alt alt => [(lit "Alt", is_textlike alt)]
  | StructElement_expanded expanded => [(lit "E", is_textlike expanded)]
  | StructElement_actual_text actual_text => [(lit "ActualText", is_textlike actual_text)]
  | StructElement_associated_files items => [(lit "AF", is_array_of FileSpec_reads items)]
  | StructElement_namespace ns => [(lit "NS", is_ref ns)]
  | StructElement_phonetic_alphabet alphabet => [(lit "PhoneticAlphabet", is_PhoneticAlphabet alphabet)]
  | StructElement_phoneme phoneme => [(lit "Phoneme", is_text phoneme)]
  end.
Definition StructElement_call_ok (c : StructElement_call) : bool :=
  match c with
  | StructElement_kind _ => true
  | StructElement_kind_2 role pdf_2_ns => role2_ok role && ref_ok pdf_2_ns
  | StructElement_custom_kind name => name_ok name
  | StructElement_parent parent => ref_ok parent
  | StructElement_id _ => true
  | StructElement_refs refs_ => forallb ref_ok refs_
  | StructElement_page page => ref_ok page
  | StructElement_child id => ref_ok id
  | StructElement_marked_content_child calls => MarkedRef_ok calls
  | StructElement_object_child calls => ObjectRef_ok calls
  | StructElement_children calls => StructChildren_ok calls
  | StructElement_attributes items => forallb Attributes_ok items
  | StructElement_attribute_class items => forallb name_ok items
  | StructElement_revision revision => in_i32 revision
  | StructElement_title title => textlike_ok title
  | StructElement_lang lang => text_ok lang
  | StructElement_alt alt => textlike_ok alt
  | StructElement_expanded expanded => textlike_ok expanded
  | StructElement_actual_text actual_text => textlike_ok actual_text
  | StructElement_associated_files items => forallb FileSpec_ok items
  | StructElement_namespace ns => ref_ok ns
  | StructElement_phonetic_alphabet alphabet => PhoneticAlphabet_ok alphabet
  | StructElement_phoneme phoneme => text_ok phoneme
  end.
Definition StructElement_reads (cs : StructElement_calls) : val -> Prop := writer_reads StructElement_head StructElement_doc cs.
Definition StructElement_ok (cs : StructElement_calls) : bool := forallb (raw_ok StructElement_call_ok) cs.

(** A sample: every method once. *)
Definition StructElement_sample : StructElement_calls := [
  Typed (StructElement_kind StructRole_Form); Typed (StructElement_kind_2 (StructRole2_Heading 7) 7); Typed (StructElement_custom_kind (lit "a b")); Typed (StructElement_parent 7); Typed (StructElement_id (lit "x(y")); Typed (StructElement_refs [3; 4]); Typed (StructElement_page 7); Typed (StructElement_child 7); Typed (StructElement_marked_content_child MarkedRef_sample); Typed (StructElement_object_child ObjectRef_sample); Typed (StructElement_children StructChildren_sample); Typed (StructElement_attributes [Attributes_sample; []]); Typed (StructElement_attribute_class [lit "A"; lit "B"]); Typed (StructElement_revision (-3)); Typed (StructElement_title (TextPlain [97; 128512])); Typed (StructElement_lang [960; 65]); Typed (StructElement_alt (TextPlain [97; 128512])); Typed (StructElement_expanded (TextPlain [97; 128512])); Typed (StructElement_actual_text (TextPlain [97; 128512])); Typed (StructElement_associated_files [FileSpec_sample; []]); Typed (StructElement_namespace 7); Typed (StructElement_phonetic_alphabet (PhoneticAlphabet_Custom (lit "Zz"))); Typed (StructElement_phoneme [960; 65]); Raw (lit "Extra") (OArray [OPrim (PBool true)])].

(** ** RoleMap *)

(** Written by the constructor: nothing. *)
Definition RoleMap_head : list entry_spec := [].
Definition RoleMap_doc (c : RoleMap_call) : list entry_spec :=
  match c with
  | RoleMap_insert name role => [(name, is_StructRole role)]
  | RoleMap_pair name value => [(name, is_name value)]
  end.
Definition RoleMap_call_ok (c : RoleMap_call) : bool :=
  match c with
  | RoleMap_insert name _ => name_ok name
  | RoleMap_pair name value => name_ok name && name_ok value
  end.
Definition RoleMap_reads (cs : RoleMap_calls) : val -> Prop := writer_reads RoleMap_head RoleMap_doc (map Typed cs).
Definition RoleMap_ok (cs : RoleMap_calls) : bool := forallb (raw_ok RoleMap_call_ok) (map Typed cs).

(** A sample: every method once. *)
Definition RoleMap_sample : RoleMap_calls := [
  (RoleMap_insert (lit "a b") StructRole_Form); (RoleMap_pair (lit "a b") (lit "a b"))].

(** ** ClassMap *)

(** Written by the constructor: nothing. *)
Definition ClassMap_head : list entry_spec := [].
Definition ClassMap_doc (c : ClassMap_call) : list entry_spec :=
  match c with
  | ClassMap_single name calls => [(name, Attributes_reads calls)]
  | ClassMap_multiple name items => [(name, is_array_of Attributes_reads items)]
  end.
Definition ClassMap_call_ok (c : ClassMap_call) : bool :=
  match c with
  | ClassMap_single name calls => name_ok name && Attributes_ok calls
  | ClassMap_multiple name items => name_ok name && forallb Attributes_ok items
  end.
Definition ClassMap_reads (cs : ClassMap_calls) : val -> Prop := writer_reads ClassMap_head ClassMap_doc cs.
Definition ClassMap_ok (cs : ClassMap_calls) : bool := forallb (raw_ok ClassMap_call_ok) cs.

(** A sample: every method once. *)
Definition ClassMap_sample : ClassMap_calls := [
  Typed (ClassMap_single (lit "a b") Attributes_sample); Typed (ClassMap_multiple (lit "a b") [Attributes_sample; []]); Raw (lit "Extra") (OArray [OPrim (PBool true)])].

(** ** NamespaceRoleMap *)

(** Written by the constructor: nothing. *)
Definition NamespaceRoleMap_head : list entry_spec := [].
Definition NamespaceRoleMap_doc (c : NamespaceRoleMap_call) : list entry_spec :=
  match c with
  | NamespaceRoleMap_to_pdf_1_7 name role => [(name, is_StructRole role)]
  | NamespaceRoleMap_to_namespace name role ns_ref => [(name, is_array [is_name role; is_ref ns_ref])]
  | NamespaceRoleMap_to_pdf_2_0 name role pdf_2_ns => [(name, is_array [is_StructRole2 role; is_ref pdf_2_ns])]
  end.
Definition NamespaceRoleMap_call_ok (c : NamespaceRoleMap_call) : bool :=
  match c with
  | NamespaceRoleMap_to_pdf_1_7 name _ => name_ok name
  | NamespaceRoleMap_to_namespace name role ns_ref => name_ok name && name_ok role && ref_ok ns_ref
  | NamespaceRoleMap_to_pdf_2_0 name role pdf_2_ns => name_ok name && role2_ok role && ref_ok pdf_2_ns
  end.
Definition NamespaceRoleMap_reads (cs : NamespaceRoleMap_calls) : val -> Prop := writer_reads NamespaceRoleMap_head NamespaceRoleMap_doc cs.
Definition NamespaceRoleMap_ok (cs : NamespaceRoleMap_calls) : bool := forallb (raw_ok NamespaceRoleMap_call_ok) cs.

(** A sample: every method once. *)
Definition NamespaceRoleMap_sample : NamespaceRoleMap_calls := [
  Typed (NamespaceRoleMap_to_pdf_1_7 (lit "a b") StructRole_Form); Typed (NamespaceRoleMap_to_namespace (lit "a b") (lit "a b") 7); Typed (NamespaceRoleMap_to_pdf_2_0 (lit "a b") (StructRole2_Heading 7) 7); Raw (lit "Extra") (OArray [OPrim (PBool true)])].

(** ** Namespace *)

(** Written by the constructor. *)
Definition Namespace_head : list entry_spec := [(lit "Type", is_name (lit "Namespace"))].
Definition Namespace_doc (c : Namespace_call) : list entry_spec :=
  match c with
  | Namespace_ns identifier => [(lit "NS", is_text identifier)]
  | Namespace_schema calls => [(lit "Schema", FileSpec_reads calls)]
  | Namespace_role_map_ns calls => [(lit "RoleMapNS", NamespaceRoleMap_reads calls)]
  | Namespace_pdf_2_ns => [(lit "NS", is_text (ascii "https://www.iso.org/pdf2/ssn"))]
  | Namespace_pdf_1_7_ns => [(lit "NS", is_text (ascii "https://www.iso.org/pdf/ssn"))]
  | Namespace_mathml_3_0_ns => [(lit "NS", is_text (ascii "https://www.w3.org/1998/Math/MathML"))]
  end.
Definition Namespace_call_ok (c : Namespace_call) : bool :=
  match c with
  | Namespace_ns identifier => text_ok identifier
  | Namespace_schema calls => FileSpec_ok calls
  | Namespace_role_map_ns calls => NamespaceRoleMap_ok calls
  | Namespace_pdf_2_ns => true
  | Namespace_pdf_1_7_ns => true
  | Namespace_mathml_3_0_ns => true
  end.
Definition Namespace_reads (cs : Namespace_calls) : val -> Prop := writer_reads Namespace_head Namespace_doc cs.
Definition Namespace_ok (cs : Namespace_calls) : bool := forallb (raw_ok Namespace_call_ok) cs.

(** A sample: every method once. *)
Definition Namespace_sample : Namespace_calls := [
  Typed (Namespace_ns [960; 65]); Typed (Namespace_schema FileSpec_sample); Typed (Namespace_role_map_ns NamespaceRoleMap_sample); Typed Namespace_pdf_2_ns; Typed Namespace_pdf_1_7_ns; Typed Namespace_mathml_3_0_ns; Raw (lit "Extra") (OArray [OPrim (PBool true)])].

(** ** StructTreeRoot *)

(** Written by the constructor. *)
Definition StructTreeRoot_head : list entry_spec := [(lit "Type", is_name (lit "StructTreeRoot"))].
Definition StructTreeRoot_doc (c : StructTreeRoot_call) : list entry_spec :=
  match c with
  | StructTreeRoot_child id => [(lit "K", is_ref id)]
  | StructTreeRoot_children items => [(lit "K", is_refs items)]
  | StructTreeRoot_id_tree x => [(lit "IDTree", is_name_tree x)]
  | StructTreeRoot_parent_tree x => [(lit "ParentTree", is_number_tree x)]
  | StructTreeRoot_parent_tree_next_key key => [(lit "ParentTreeNextKey", is_int key)]
  | StructTreeRoot_role_map calls => [(lit "RoleMap", RoleMap_reads calls)]
  | StructTreeRoot_class_map calls => [(lit "ClassMap", ClassMap_reads calls)]
  | StructTreeRoot_namespaces items => [(lit "Namespaces", is_refs items)]
  | StructTreeRoot_pronunciation_lexicon items => [(lit "PronunciationLexicon", is_refs items)]
  | StructTreeRoot_associated_files items => [(lit "AF", is_array_of FileSpec_reads items)]
  end.
Definition StructTreeRoot_call_ok (c : StructTreeRoot_call) : bool :=
  match c with
  | StructTreeRoot_child id => ref_ok id
  | StructTreeRoot_children items => forallb ref_ok items
  | StructTreeRoot_id_tree x => forallb name_tree_ok x
  | StructTreeRoot_parent_tree x => forallb number_tree_ok x
  | StructTreeRoot_parent_tree_next_key key => in_i32 key
  | StructTreeRoot_role_map calls => RoleMap_ok calls
  | StructTreeRoot_class_map calls => ClassMap_ok calls
  | StructTreeRoot_namespaces items => forallb ref_ok items
  | StructTreeRoot_pronunciation_lexicon items => forallb ref_ok items
  | StructTreeRoot_associated_files items => forallb FileSpec_ok items
  end.
Definition StructTreeRoot_reads (cs : StructTreeRoot_calls) : val -> Prop := writer_reads StructTreeRoot_head StructTreeRoot_doc cs.
Definition StructTreeRoot_ok (cs : StructTreeRoot_calls) : bool := forallb (raw_ok StructTreeRoot_call_ok) cs.

(** A sample: every method once. *)
Definition StructTreeRoot_sample : StructTreeRoot_calls := [
  Typed (StructTreeRoot_child 7); Typed (StructTreeRoot_children [3; 4]); Typed (StructTreeRoot_id_tree [NtNames [(lit "a", PRef 3)]]); Typed (StructTreeRoot_parent_tree [MtNums [(0, PRef 3)]]); Typed (StructTreeRoot_parent_tree_next_key (-3)); Typed (StructTreeRoot_role_map RoleMap_sample); Typed (StructTreeRoot_class_map ClassMap_sample); Typed (StructTreeRoot_namespaces [3; 4]); Typed (StructTreeRoot_pronunciation_lexicon [3; 4]); Typed (StructTreeRoot_associated_files [FileSpec_sample; []]); Raw (lit "Extra") (OArray [OPrim (PBool true)])].

(** ** MarkInfo *)

(** Written by the constructor: nothing. *)
Definition MarkInfo_head : list entry_spec := [].
Definition MarkInfo_doc (c : MarkInfo_call) : list entry_spec :=
  match c with
  | MarkInfo_marked conformant => [(lit "Marked", is_bool conformant)]
  | MarkInfo_user_properties present => [(lit "UserProperties", is_bool present)]
  | MarkInfo_suspects present => [(lit "Suspects", is_bool present)]
  end.
Definition MarkInfo_call_ok (c : MarkInfo_call) : bool :=
  match c with
  | MarkInfo_marked _ => true
  | MarkInfo_user_properties _ => true
  | MarkInfo_suspects _ => true
  end.
Definition MarkInfo_reads (cs : MarkInfo_calls) : val -> Prop := writer_reads MarkInfo_head MarkInfo_doc cs.
Definition MarkInfo_ok (cs : MarkInfo_calls) : bool := forallb (raw_ok MarkInfo_call_ok) cs.

(** A sample: every method once. *)
Definition MarkInfo_sample : MarkInfo_calls := [
  Typed (MarkInfo_marked true); Typed (MarkInfo_user_properties true); Typed (MarkInfo_suspects true); Raw (lit "Extra") (OArray [OPrim (PBool true)])].
