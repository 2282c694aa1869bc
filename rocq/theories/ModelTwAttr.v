(** Model of typed writers: structure elements and attributes.  Generated by gen/gen_writers.py from the source text. *)

From Coq Require Import ZArith List Bool.
From Verif Require ModelContent ModelCmap.
From Verif Require Import Bytes ModelFloat ModelBuf ModelObject ModelColor ModelSmall ModelPdf ModelTw ModelEnums ModelRoles ModelTwArgs ModelTwFiles ModelTwGraphics ModelTwAnnot ModelTwForms.
Import ListNotations.
Local Open Scope Z_scope.

(** ** UserProperty (src/attributes.rs) *)

Inductive UserProperty_call :=
| UserProperty_name (name : textlike)
| UserProperty_value (o : obj)
| UserProperty_format (format : textlike)
| UserProperty_hidden (hide : bool).
Definition UserProperty_entries (c : UserProperty_call) : list (bytes * obj) :=
  match c with
  | UserProperty_name name => [(lit "N", OPrim (text_prim name))]   (* src/attributes.rs:93-96 *)
  | UserProperty_value o => [(lit "V", o)]   (* src/attributes.rs:99-101 *)
  | UserProperty_format format => [(lit "F", OPrim (text_prim format))]   (* src/attributes.rs:104-107 *)
  | UserProperty_hidden hide => [(lit "H", OPrim (PBool hide))]   (* src/attributes.rs:111-114 *)
  end.
(** src/attributes.rs:89: no entries. *)
Definition UserProperty_header : list (bytes * obj) := [].
Definition UserProperty_calls : Type := list (or_raw UserProperty_call).
Definition UserProperty_obj (cs : UserProperty_calls) : obj := dict_writer UserProperty_header UserProperty_entries cs.

(** ** LayoutAttributes (src/attributes.rs) *)

Inductive LayoutAttributes_call :=
| LayoutAttributes_placement (placement : Placement)
| LayoutAttributes_writing_mode (mode : WritingMode)
| LayoutAttributes_background_color (color : f3)
| LayoutAttributes_border_color (color : sides f3)
| LayoutAttributes_border_style (style : sides border_style)
| LayoutAttributes_border_thickness (thickness : sides f32)
| LayoutAttributes_padding (padding : sides f32)
| LayoutAttributes_color (color : f3)
| LayoutAttributes_space_before (space : f32)
| LayoutAttributes_space_after (space : f32)
| LayoutAttributes_start_indent (indent : f32)
| LayoutAttributes_end_indent (indent : f32)
| LayoutAttributes_text_indent (indent : f32)
| LayoutAttributes_text_align (align : TextAlign)
| LayoutAttributes_width (width : f32)
| LayoutAttributes_height (height : f32)
| LayoutAttributes_bbox (bbox : rect)
| LayoutAttributes_block_align (align : BlockAlign)
| LayoutAttributes_inline_align (align : InlineAlign)
| LayoutAttributes_table_border_style (style : sides border_style)
| LayoutAttributes_table_padding (padding : sides f32)
| LayoutAttributes_column_count (count : Z)
| LayoutAttributes_column_widths (x : TrackSizes_call)
| LayoutAttributes_column_gap (x : TrackSizes_call)
| LayoutAttributes_line_height (height : LineHeight)
| LayoutAttributes_baseline_shift (shift : f32)
| LayoutAttributes_text_position (position : LayoutTextPosition)
| LayoutAttributes_text_decoration_type (decoration : TextDecorationType)
| LayoutAttributes_text_decoration_color (color : f3)
| LayoutAttributes_text_decoration_thickness (thickness : f32)
| LayoutAttributes_glyph_orientation_vertical (orientation : GlyphOrientationVertical)
| LayoutAttributes_ruby_align (align : RubyAlign)
| LayoutAttributes_ruby_position (position : RubyPosition).
Definition LayoutAttributes_entries (c : LayoutAttributes_call) : list (bytes * obj) :=
  match c with
  | LayoutAttributes_placement placement => [(lit "Placement", OPrim (PName (Placement_name placement)))]   (* src/attributes.rs:136-139 *)
  | LayoutAttributes_writing_mode mode => [(lit "WritingMode", OPrim (PName (WritingMode_name mode)))]   (* src/attributes.rs:142-145 *)
  | LayoutAttributes_background_color color => [(lit "BackgroundColor", reals (l3 color))]   (* src/attributes.rs:149-156 *)
  | LayoutAttributes_border_color color => [(lit "BorderColor", sides_colors color)]   (* src/attributes.rs:159-163 *)
  | LayoutAttributes_border_style style => [(lit "BorderStyle", sides_styles style)]   (* src/attributes.rs:166-170 *)
  | LayoutAttributes_border_thickness thickness => [(lit "BorderThickness", sides_reals thickness)]   (* src/attributes.rs:173-177 *)
  | LayoutAttributes_padding padding => [(lit "Padding", sides_reals padding)]   (* src/attributes.rs:180-184 *)
  | LayoutAttributes_color color => [(lit "Color", reals (l3 color))]   (* src/attributes.rs:187-190 *)
  | LayoutAttributes_space_before space => [(lit "SpaceBefore", OPrim (PReal space))]   (* src/attributes.rs:389-392 *)
  | LayoutAttributes_space_after space => [(lit "SpaceAfter", OPrim (PReal space))]   (* src/attributes.rs:395-398 *)
  | LayoutAttributes_start_indent indent => [(lit "StartIndent", OPrim (PReal indent))]   (* src/attributes.rs:401-404 *)
  | LayoutAttributes_end_indent indent => [(lit "EndIndent", OPrim (PReal indent))]   (* src/attributes.rs:407-410 *)
  | LayoutAttributes_text_indent indent => [(lit "TextIndent", OPrim (PReal indent))]   (* src/attributes.rs:413-416 *)
  | LayoutAttributes_text_align align => [(lit "TextAlign", OPrim (PName (TextAlign_name align)))]   (* src/attributes.rs:419-422 *)
  | LayoutAttributes_width width => [(lit "Width", OPrim (PReal width))]   (* src/attributes.rs:426-429 *)
  | LayoutAttributes_height height => [(lit "Height", OPrim (PReal height))]   (* src/attributes.rs:433-436 *)
  | LayoutAttributes_bbox bbox => [(lit "BBox", OPrim (PRect bbox))]   (* src/attributes.rs:467-470 *)
  | LayoutAttributes_block_align align => [(lit "BlockAlign", OPrim (PName (BlockAlign_name align)))]   (* src/attributes.rs:476-479 *)
  | LayoutAttributes_inline_align align => [(lit "InlineAlign", OPrim (PName (InlineAlign_name align)))]   (* src/attributes.rs:482-485 *)
  | LayoutAttributes_table_border_style style => [(lit "TBorderStyle", sides_styles style)]   (* src/attributes.rs:488-492 *)
  | LayoutAttributes_table_padding padding => [(lit "TPadding", sides_reals padding)]   (* src/attributes.rs:495-499 *)
  | LayoutAttributes_column_count count => [(lit "ColumnCount", OPrim (PInt count))]   (* src/attributes.rs:530-533 *)
  | LayoutAttributes_column_widths x => [(lit "ColumnWidths", TrackSizes_obj x)]   (* src/attributes.rs:536-538 *)
  | LayoutAttributes_column_gap x => [(lit "ColumnGap", TrackSizes_obj x)]   (* src/attributes.rs:541-543 *)
  | LayoutAttributes_line_height height => [(lit "LineHeight", LineHeight_obj height)]   (* src/attributes.rs:597-600 *)
  | LayoutAttributes_baseline_shift shift => [(lit "BaselineShift", OPrim (PReal shift))]   (* src/attributes.rs:603-606 *)
  | LayoutAttributes_text_position position => [(lit "TextPosition", OPrim (PName (LayoutTextPosition_name position)))]   (* src/attributes.rs:609-612 *)
  | LayoutAttributes_text_decoration_type decoration => [(lit "TextDecorationType", OPrim (PName (TextDecorationType_name decoration)))]   (* src/attributes.rs:615-618 *)
  | LayoutAttributes_text_decoration_color color => [(lit "TextDecorationColor", reals (l3 color))]   (* src/attributes.rs:621-628 *)
  | LayoutAttributes_text_decoration_thickness thickness => [(lit "TextDecorationThickness", OPrim (PReal thickness))]   (* src/attributes.rs:631-634 *)
  | LayoutAttributes_glyph_orientation_vertical orientation => [(lit "GlyphOrientationVertical", GlyphOrientationVertical_obj orientation)]   (* src/attributes.rs:730-736 *)
  | LayoutAttributes_ruby_align align => [(lit "RubyAlign", OPrim (PName (RubyAlign_name align)))]   (* src/attributes.rs:742-745 *)
  | LayoutAttributes_ruby_position position => [(lit "RubyPosition", OPrim (PName (RubyPosition_name position)))]   (* src/attributes.rs:748-751 *)
  end.
(** src/attributes.rs:130-133. *)
Definition LayoutAttributes_header : list (bytes * obj) := [(lit "O", OPrim (PName (AttributeOwner_name AttributeOwner_Layout false)))].
Definition LayoutAttributes_calls : Type := list (or_raw LayoutAttributes_call).
Definition LayoutAttributes_obj (cs : LayoutAttributes_calls) : obj := dict_writer LayoutAttributes_header LayoutAttributes_entries cs.

(** ** ListAttributes (src/attributes.rs) *)

Inductive ListAttributes_call :=
| ListAttributes_list_numbering (numbering : ListNumbering)
| ListAttributes_continued_list (continued : bool)
| ListAttributes_continued_from (id : bytes).
Definition ListAttributes_entries (c : ListAttributes_call) : list (bytes * obj) :=
  match c with
  | ListAttributes_list_numbering numbering => [(lit "ListNumbering", OPrim (PName (ListNumbering_name numbering)))]   (* src/attributes.rs:825-828 *)
  | ListAttributes_continued_list continued => [(lit "ContinuedList", OPrim (PBool continued))]   (* src/attributes.rs:835-838 *)
  | ListAttributes_continued_from id => [(lit "ContinuedFrom", OPrim (PStr id))]   (* src/attributes.rs:843-846 *)
  end.
(** src/attributes.rs:819-822. *)
Definition ListAttributes_header : list (bytes * obj) := [(lit "O", OPrim (PName (AttributeOwner_name AttributeOwner_List false)))].
Definition ListAttributes_calls : Type := list (or_raw ListAttributes_call).
Definition ListAttributes_obj (cs : ListAttributes_calls) : obj := dict_writer ListAttributes_header ListAttributes_entries cs.

(** ** FieldAttributes (src/attributes.rs) *)

Inductive FieldAttributes_call :=
| FieldAttributes_role (role : FieldRole)
| FieldAttributes_checked (checked : FieldState) (pdf2 : bool)
| FieldAttributes_description (desc : textlike).
Definition FieldAttributes_entries (c : FieldAttributes_call) : list (bytes * obj) :=
  match c with
  | FieldAttributes_role role => [(lit "Role", OPrim (PName (FieldRole_name role)))]   (* src/attributes.rs:916-919 *)
  | FieldAttributes_checked checked pdf2 => [(if pdf2 then lit "Checked" else lit "checked", OPrim (PName (FieldState_name checked)))]   (* src/attributes.rs:927-931 *)
  | FieldAttributes_description desc => [(lit "Desc", OPrim (text_prim desc))]   (* src/attributes.rs:934-937 *)
  end.
(** src/attributes.rs:910-913. *)
Definition FieldAttributes_header : list (bytes * obj) := [(lit "O", OPrim (PName (AttributeOwner_name AttributeOwner_PrintField false)))].
Definition FieldAttributes_calls : Type := list (or_raw FieldAttributes_call).
Definition FieldAttributes_obj (cs : FieldAttributes_calls) : obj := dict_writer FieldAttributes_header FieldAttributes_entries cs.

(** ** TableAttributes (src/attributes.rs) *)

Inductive TableAttributes_call :=
| TableAttributes_row_span (row_span : Z)
| TableAttributes_col_span (col_span : Z)
| TableAttributes_headers (items : list bytes)
| TableAttributes_scope (scope : TableHeaderScope)
| TableAttributes_summary (summary : textlike)
| TableAttributes_short (short : textlike).
Definition TableAttributes_entries (c : TableAttributes_call) : list (bytes * obj) :=
  match c with
  | TableAttributes_row_span row_span => [(lit "RowSpan", OPrim (PInt row_span))]   (* src/attributes.rs:1008-1011 *)
  | TableAttributes_col_span col_span => [(lit "ColSpan", OPrim (PInt col_span))]   (* src/attributes.rs:1015-1018 *)
  | TableAttributes_headers items => [(lit "Headers", arr_of (fun s => OPrim (PStr s)) items)]   (* src/attributes.rs:1022-1024 *)
  | TableAttributes_scope scope => [(lit "Scope", OPrim (PName (TableHeaderScope_name scope)))]   (* src/attributes.rs:1028-1031 *)
  | TableAttributes_summary summary => [(lit "Summary", OPrim (text_prim summary))]   (* src/attributes.rs:1035-1038 *)
  | TableAttributes_short short => [(lit "Short", OPrim (text_prim short))]   (* src/attributes.rs:1042-1045 *)
  end.
(** src/attributes.rs:1001-1004. *)
Definition TableAttributes_header : list (bytes * obj) := [(lit "O", OPrim (PName (AttributeOwner_name AttributeOwner_Table false)))].
Definition TableAttributes_calls : Type := list (or_raw TableAttributes_call).
Definition TableAttributes_obj (cs : TableAttributes_calls) : obj := dict_writer TableAttributes_header TableAttributes_entries cs.

(** ** ArtifactAttributes (src/attributes.rs) *)

Inductive ArtifactAttributes_call :=
| ArtifactAttributes_artifact_type (artifact_type : ArtifactType)
| ArtifactAttributes_bbox (bbox : rect)
| ArtifactAttributes_subtype (subtype : ArtifactSubtype).
Definition ArtifactAttributes_entries (c : ArtifactAttributes_call) : list (bytes * obj) :=
  match c with
  | ArtifactAttributes_artifact_type artifact_type => [(lit "Type", OPrim (PName (ArtifactType_name artifact_type)))]   (* src/attributes.rs:1087-1090 *)
  | ArtifactAttributes_bbox bbox => [(lit "BBox", OPrim (PRect bbox))]   (* src/attributes.rs:1093-1096 *)
  | ArtifactAttributes_subtype subtype => [(lit "Subtype", OPrim (PName (ArtifactSubtype_name subtype)))]   (* src/attributes.rs:1100-1103 *)
  end.
(** src/attributes.rs:1081-1084. *)
Definition ArtifactAttributes_header : list (bytes * obj) := [(lit "O", OPrim (PName (AttributeOwner_name AttributeOwner_Artifact true)))].
Definition ArtifactAttributes_calls : Type := list (or_raw ArtifactAttributes_call).
Definition ArtifactAttributes_obj (cs : ArtifactAttributes_calls) : obj := dict_writer ArtifactAttributes_header ArtifactAttributes_entries cs.

(** ** FENoteAttributes (src/attributes.rs) *)

Inductive FENoteAttributes_call :=
| FENoteAttributes_note_type (note_type : NoteType).
Definition FENoteAttributes_entries (c : FENoteAttributes_call) : list (bytes * obj) :=
  match c with
  | FENoteAttributes_note_type note_type => [(lit "NoteType", OPrim (PName (NoteType_name note_type)))]   (* src/attributes.rs:1124-1127 *)
  end.
(** src/attributes.rs:1118-1121. *)
Definition FENoteAttributes_header : list (bytes * obj) := [(lit "O", OPrim (PName (AttributeOwner_name AttributeOwner_FENote true)))].
Definition FENoteAttributes_calls : Type := list (or_raw FENoteAttributes_call).
Definition FENoteAttributes_obj (cs : FENoteAttributes_calls) : obj := dict_writer FENoteAttributes_header FENoteAttributes_entries cs.

(** ** Attributes (src/attributes.rs) *)

Inductive Attributes_call :=
| Attributes_owner (owner : AttributeOwner) (iso32000_2_2020 : bool)
| Attributes_user (properties : list UserProperty_calls)
| Attributes_layout (calls : LayoutAttributes_calls)
| Attributes_list (calls : ListAttributes_calls)
| Attributes_field (calls : FieldAttributes_calls)
| Attributes_table (calls : TableAttributes_calls)
| Attributes_artifact (calls : ArtifactAttributes_calls)
| Attributes_note (calls : FENoteAttributes_calls)
| Attributes_namespace (ns : Z) (entries : list (bytes * obj)).
Definition Attributes_entries (c : Attributes_call) : list (bytes * obj) :=
  match c with
  | Attributes_owner owner iso32000_2_2020 => [(lit "O", OPrim (PName (AttributeOwner_name owner iso32000_2_2020)))]   (* src/attributes.rs:24-27 *)
  | Attributes_user properties => [(lit "O", OPrim (PName (AttributeOwner_name AttributeOwner_User false))); (lit "P", arr_of UserProperty_obj properties)]   (* src/attributes.rs:31-34 *)
  | Attributes_layout calls => writer_list LayoutAttributes_header LayoutAttributes_entries calls   (* src/attributes.rs:37-39 *)
  | Attributes_list calls => writer_list ListAttributes_header ListAttributes_entries calls   (* src/attributes.rs:42-44 *)
  | Attributes_field calls => writer_list FieldAttributes_header FieldAttributes_entries calls   (* src/attributes.rs:48-50 *)
  | Attributes_table calls => writer_list TableAttributes_header TableAttributes_entries calls   (* src/attributes.rs:53-55 *)
  | Attributes_artifact calls => writer_list ArtifactAttributes_header ArtifactAttributes_entries calls   (* src/attributes.rs:59-61 *)
  | Attributes_note calls => writer_list FENoteAttributes_header FENoteAttributes_entries calls   (* src/attributes.rs:65-67 *)
  | Attributes_namespace ns entries => (lit "O", OPrim (PName (AttributeOwner_name AttributeOwner_NSO true))) :: (lit "NS", OPrim (PRef ns)) :: entries   (* src/attributes.rs:72-77 *)
  end.
(** src/attributes.rs:14: no entries. *)
Definition Attributes_header : list (bytes * obj) := [].
Definition Attributes_calls : Type := list (or_raw Attributes_call).
Definition Attributes_obj (cs : Attributes_calls) : obj := dict_writer Attributes_header Attributes_entries cs.

(** ** MarkedRef (src/structure.rs) *)

Inductive MarkedRef_call :=
| MarkedRef_page (page : Z)
| MarkedRef_stream (stream : Z)
| MarkedRef_stream_owner (owner : Z)
| MarkedRef_marked_content_id (id : Z).
Definition MarkedRef_entries (c : MarkedRef_call) : list (bytes * obj) :=
  match c with
  | MarkedRef_page page => [(lit "Pg", OPrim (PRef page))]   (* src/structure.rs:658-661 *)
  | MarkedRef_stream stream => [(lit "Stm", OPrim (PRef stream))]   (* src/structure.rs:667-670 *)
  | MarkedRef_stream_owner owner => [(lit "StmOwn", OPrim (PRef owner))]   (* src/structure.rs:674-677 *)
  | MarkedRef_marked_content_id id => [(lit "MCID", OPrim (PInt id))]   (* src/structure.rs:681-684 *)
  end.
(** src/structure.rs:649-653. *)
Definition MarkedRef_header : list (bytes * obj) := [(lit "Type", OPrim (PName (lit "MCR")))].
Definition MarkedRef_calls : Type := list (or_raw MarkedRef_call).
Definition MarkedRef_obj (cs : MarkedRef_calls) : obj := dict_writer MarkedRef_header MarkedRef_entries cs.

(** ** ObjectRef (src/structure.rs) *)

Inductive ObjectRef_call :=
| ObjectRef_page (page : Z)
| ObjectRef_object (obj : Z).
Definition ObjectRef_entries (c : ObjectRef_call) : list (bytes * obj) :=
  match c with
  | ObjectRef_page page => [(lit "Pg", OPrim (PRef page))]   (* src/structure.rs:705-708 *)
  | ObjectRef_object obj => [(lit "Obj", OPrim (PRef obj))]   (* src/structure.rs:711-714 *)
  end.
(** src/structure.rs:696-700. *)
Definition ObjectRef_header : list (bytes * obj) := [(lit "Type", OPrim (PName (lit "OBJR")))].
Definition ObjectRef_calls : Type := list (or_raw ObjectRef_call).
Definition ObjectRef_obj (cs : ObjectRef_calls) : obj := dict_writer ObjectRef_header ObjectRef_entries cs.

(** ** StructChildren (src/structure.rs) *)

Inductive StructChildren_call :=
| StructChildren_struct_element (id : Z)
| StructChildren_marked_content_id (id : Z)
| StructChildren_marked_content_ref (calls : MarkedRef_calls)
| StructChildren_object_ref (calls : ObjectRef_calls).
Definition StructChildren_items (c : StructChildren_call) : list obj :=
  match c with
  | StructChildren_struct_element id => [OPrim (PRef id)]   (* src/structure.rs:617-620 *)
  | StructChildren_marked_content_id id => [OPrim (PInt id)]   (* src/structure.rs:623-626 *)
  | StructChildren_marked_content_ref calls => [MarkedRef_obj calls]   (* src/structure.rs:629-631 *)
  | StructChildren_object_ref calls => [ObjectRef_obj calls]   (* src/structure.rs:634-636 *)
  end.
Definition StructChildren_calls : Type := list (or_item StructChildren_call).
Definition StructChildren_obj (cs : StructChildren_calls) : obj := array_writer StructChildren_items cs.

(** ** StructElement (src/structure.rs) *)

Inductive StructElement_call :=
| StructElement_kind (role : StructRole)
| StructElement_kind_2 (role : StructRole2) (pdf_2_ns : Z)
| StructElement_custom_kind (name : bytes)
| StructElement_parent (parent : Z)
| StructElement_id (id : bytes)
| StructElement_refs (refs_ : list Z)
| StructElement_page (page : Z)
| StructElement_child (id : Z)
| StructElement_marked_content_child (calls : MarkedRef_calls)
| StructElement_object_child (calls : ObjectRef_calls)
| StructElement_children (calls : StructChildren_calls)
| StructElement_attributes (items : list Attributes_calls)
| StructElement_attribute_class (items : list bytes)
| StructElement_revision (revision : Z)
| StructElement_title (title : textlike)
| StructElement_lang (lang : list Z)
| StructElement_alt (alt : textlike)
| StructElement_expanded (expanded : textlike)
| StructElement_actual_text (actual_text : textlike)
| StructElement_associated_files (items : list FileSpec_calls)
| StructElement_namespace (ns : Z)
| StructElement_phonetic_alphabet (alphabet : PhoneticAlphabet)
| StructElement_phoneme (phoneme : list Z).
Definition StructElement_entries (c : StructElement_call) : list (bytes * obj) :=
  match c with
  | StructElement_kind role => [(lit "S", OPrim (PName (StructRole_name role)))]   (* src/structure.rs:437-440 *)
  | StructElement_kind_2 role pdf_2_ns => [(lit "S", OPrim (PName (role2_name role))); (lit "NS", OPrim (PRef pdf_2_ns))]   (* src/structure.rs:450-453 *)
  | StructElement_custom_kind name => [(lit "S", OPrim (PName name))]   (* src/structure.rs:464-467 *)
  | StructElement_parent parent => [(lit "P", OPrim (PRef parent))]   (* src/structure.rs:471-474 *)
  | StructElement_id id => [(lit "ID", OPrim (PStr id))]   (* src/structure.rs:478-481 *)
  | StructElement_refs refs_ => [(lit "Ref", refs refs_)]   (* src/structure.rs:488-491 *)
  | StructElement_page page => [(lit "Pg", OPrim (PRef page))]   (* src/structure.rs:495-498 *)
  | StructElement_child id => [(lit "K", OPrim (PRef id))]   (* src/structure.rs:502-505 *)
  | StructElement_marked_content_child calls => [(lit "K", MarkedRef_obj calls)]   (* src/structure.rs:509-511 *)
  | StructElement_object_child calls => [(lit "K", ObjectRef_obj calls)]   (* src/structure.rs:515-517 *)
  | StructElement_children calls => [(lit "K", StructChildren_obj calls)]   (* src/structure.rs:521-523 *)
  | StructElement_attributes items => [(lit "A", arr_of Attributes_obj items)]   (* src/structure.rs:527-529 *)
  | StructElement_attribute_class items => [(lit "C", names items)]   (* src/structure.rs:533-535 *)
  | StructElement_revision revision => [(lit "R", OPrim (PInt revision))]   (* src/structure.rs:538-541 *)
  | StructElement_title title => [(lit "T", OPrim (text_prim title))]   (* src/structure.rs:544-547 *)
  | StructElement_lang lang => [(lit "Lang", OPrim (PText lang))]   (* src/structure.rs:550-553 *)
  | StructElement_alt alt => [(lit "Alt", OPrim (text_prim alt))]   (* src/structure.rs:557-560 *)
  | StructElement_expanded expanded => [(lit "E", OPrim (text_prim expanded))]   (* src/structure.rs:564-567 *)
  | StructElement_actual_text actual_text => [(lit "ActualText", OPrim (text_prim actual_text))]   (* src/structure.rs:571-574 *)
  | StructElement_associated_files items => [(lit "AF", arr_of FileSpec_obj items)]   (* src/structure.rs:578-580 *)
  | StructElement_namespace ns => [(lit "NS", OPrim (PRef ns))]   (* src/structure.rs:584-587 *)
  | StructElement_phonetic_alphabet alphabet => [(lit "PhoneticAlphabet", OPrim (PName (PhoneticAlphabet_name alphabet)))]   (* src/structure.rs:591-594 *)
  | StructElement_phoneme phoneme => [(lit "Phoneme", OPrim (PText phoneme))]   (* src/structure.rs:598-601 *)
  end.
(** src/structure.rs:426-430. *)
Definition StructElement_header : list (bytes * obj) := [(lit "Type", OPrim (PName (lit "StructElem")))].
Definition StructElement_calls : Type := list (or_raw StructElement_call).
Definition StructElement_obj (cs : StructElement_calls) : obj := dict_writer StructElement_header StructElement_entries cs.

(** ** RoleMap (src/structure.rs) *)

Inductive RoleMap_call :=
| RoleMap_insert (name : bytes) (role : StructRole)
| RoleMap_pair (name : bytes) (value : bytes).
Definition RoleMap_entries (c : RoleMap_call) : list (bytes * obj) :=
  match c with
  | RoleMap_insert name role => [(name, OPrim (PName (StructRole_name role)))]   (* src/structure.rs:733-736 *)
  | RoleMap_pair name value => [(name, OPrim (PName value))]   (* src/structure.rs:739 and src/object.rs:1051-1057 (TypedDict<Name>::pair) *)
  end.
(** src/structure.rs:729: no entries. *)
Definition RoleMap_header : list (bytes * obj) := [].
Definition RoleMap_calls : Type := list RoleMap_call.
Definition RoleMap_obj (cs : RoleMap_calls) : obj := dict_writer RoleMap_header RoleMap_entries (map Typed cs).

(** ** ClassMap (src/structure.rs) *)

Inductive ClassMap_call :=
| ClassMap_single (name : bytes) (calls : Attributes_calls)
| ClassMap_multiple (name : bytes) (items : list Attributes_calls).
Definition ClassMap_entries (c : ClassMap_call) : list (bytes * obj) :=
  match c with
  | ClassMap_single name calls => [(name, Attributes_obj calls)]   (* src/structure.rs:752-754 *)
  | ClassMap_multiple name items => [(name, arr_of Attributes_obj items)]   (* src/structure.rs:757-759 *)
  end.
(** src/structure.rs:748: no entries. *)
Definition ClassMap_header : list (bytes * obj) := [].
Definition ClassMap_calls : Type := list (or_raw ClassMap_call).
Definition ClassMap_obj (cs : ClassMap_calls) : obj := dict_writer ClassMap_header ClassMap_entries cs.

(** ** NamespaceRoleMap (src/structure.rs) *)

Inductive NamespaceRoleMap_call :=
| NamespaceRoleMap_to_pdf_1_7 (name : bytes) (role : StructRole)
| NamespaceRoleMap_to_namespace (name : bytes) (role : bytes) (ns_ref : Z)
| NamespaceRoleMap_to_pdf_2_0 (name : bytes) (role : StructRole2) (pdf_2_ns : Z).
Definition NamespaceRoleMap_entries (c : NamespaceRoleMap_call) : list (bytes * obj) :=
  match c with
  | NamespaceRoleMap_to_pdf_1_7 name role => [(name, OPrim (PName (StructRole_name role)))]   (* src/structure.rs:1580-1583 *)
  | NamespaceRoleMap_to_namespace name role ns_ref => [(name, OArray [OPrim (PName role); OPrim (PRef ns_ref)])]   (* src/structure.rs:1588-1594 *)
  | NamespaceRoleMap_to_pdf_2_0 name role pdf_2_ns => [(name, OArray [OPrim (PName (role2_name role)); OPrim (PRef pdf_2_ns)])]   (* src/structure.rs:1602-1609 *)
  end.
(** src/structure.rs:1573-1575: no entries. *)
Definition NamespaceRoleMap_header : list (bytes * obj) := [].
Definition NamespaceRoleMap_calls : Type := list (or_raw NamespaceRoleMap_call).
Definition NamespaceRoleMap_obj (cs : NamespaceRoleMap_calls) : obj := dict_writer NamespaceRoleMap_header NamespaceRoleMap_entries cs.

(** ** Namespace (src/structure.rs) *)

Inductive Namespace_call :=
| Namespace_ns (identifier : list Z)
| Namespace_schema (calls : FileSpec_calls)
| Namespace_role_map_ns (calls : NamespaceRoleMap_calls)
| Namespace_pdf_2_ns
| Namespace_pdf_1_7_ns
| Namespace_mathml_3_0_ns.
Definition Namespace_entries (c : Namespace_call) : list (bytes * obj) :=
  match c with
  | Namespace_ns identifier => [(lit "NS", OPrim (PText identifier))]   (* src/structure.rs:1526-1529 *)
  | Namespace_schema calls => [(lit "Schema", FileSpec_obj calls)]   (* src/structure.rs:1533-1535 *)
  | Namespace_role_map_ns calls => [(lit "RoleMapNS", NamespaceRoleMap_obj calls)]   (* src/structure.rs:1542-1544 *)
  | Namespace_pdf_2_ns => [(lit "NS", OPrim (PText (ascii "https://www.iso.org/pdf2/ssn")))]   (* src/structure.rs:1548-1550 *)
  | Namespace_pdf_1_7_ns => [(lit "NS", OPrim (PText (ascii "https://www.iso.org/pdf/ssn")))]   (* src/structure.rs:1554-1556 *)
  | Namespace_mathml_3_0_ns => [(lit "NS", OPrim (PText (ascii "https://www.w3.org/1998/Math/MathML")))]   (* src/structure.rs:1559-1561 *)
  end.
(** src/structure.rs:1518-1522. *)
Definition Namespace_header : list (bytes * obj) := [(lit "Type", OPrim (PName (lit "Namespace")))].
Definition Namespace_calls : Type := list (or_raw Namespace_call).
Definition Namespace_obj (cs : Namespace_calls) : obj := dict_writer Namespace_header Namespace_entries cs.

(** ** StructTreeRoot (src/structure.rs) *)

Inductive StructTreeRoot_call :=
| StructTreeRoot_child (id : Z)
| StructTreeRoot_children (items : list Z)
| StructTreeRoot_id_tree (x : list name_tree_call)
| StructTreeRoot_parent_tree (x : list number_tree_call)
| StructTreeRoot_parent_tree_next_key (key : Z)
| StructTreeRoot_role_map (calls : RoleMap_calls)
| StructTreeRoot_class_map (calls : ClassMap_calls)
| StructTreeRoot_namespaces (items : list Z)
| StructTreeRoot_pronunciation_lexicon (items : list Z)
| StructTreeRoot_associated_files (items : list FileSpec_calls).
Definition StructTreeRoot_entries (c : StructTreeRoot_call) : list (bytes * obj) :=
  match c with
  | StructTreeRoot_child id => [(lit "K", OPrim (PRef id))]   (* src/structure.rs:345-348 *)
  | StructTreeRoot_children items => [(lit "K", refs items)]   (* src/structure.rs:352-354 *)
  | StructTreeRoot_id_tree x => [(lit "IDTree", name_tree_obj x)]   (* src/structure.rs:359-361 *)
  | StructTreeRoot_parent_tree x => [(lit "ParentTree", number_tree_obj x)]   (* src/structure.rs:366-368 *)
  | StructTreeRoot_parent_tree_next_key key => [(lit "ParentTreeNextKey", OPrim (PInt key))]   (* src/structure.rs:372-375 *)
  | StructTreeRoot_role_map calls => [(lit "RoleMap", RoleMap_obj calls)]   (* src/structure.rs:383-385 *)
  | StructTreeRoot_class_map calls => [(lit "ClassMap", ClassMap_obj calls)]   (* src/structure.rs:390-392 *)
  | StructTreeRoot_namespaces items => [(lit "Namespaces", refs items)]   (* src/structure.rs:398-400 *)
  | StructTreeRoot_pronunciation_lexicon items => [(lit "PronunciationLexicon", refs items)]   (* src/structure.rs:408-410 *)
  | StructTreeRoot_associated_files items => [(lit "AF", arr_of FileSpec_obj items)]   (* src/structure.rs:414-416 *)
  end.
(** src/structure.rs:336-340. *)
Definition StructTreeRoot_header : list (bytes * obj) := [(lit "Type", OPrim (PName (lit "StructTreeRoot")))].
Definition StructTreeRoot_calls : Type := list (or_raw StructTreeRoot_call).
Definition StructTreeRoot_obj (cs : StructTreeRoot_calls) : obj := dict_writer StructTreeRoot_header StructTreeRoot_entries cs.

(** ** MarkInfo (src/structure.rs) *)

Inductive MarkInfo_call :=
| MarkInfo_marked (conformant : bool)
| MarkInfo_user_properties (present : bool)
| MarkInfo_suspects (present : bool).
Definition MarkInfo_entries (c : MarkInfo_call) : list (bytes * obj) :=
  match c with
  | MarkInfo_marked conformant => [(lit "Marked", OPrim (PBool conformant))]   (* src/structure.rs:1628-1631 *)
  | MarkInfo_user_properties present => [(lit "UserProperties", OPrim (PBool present))]   (* src/structure.rs:1635-1638 *)
  | MarkInfo_suspects present => [(lit "Suspects", OPrim (PBool present))]   (* src/structure.rs:1642-1645 *)
  end.
(** src/structure.rs:1621: no entries. *)
Definition MarkInfo_header : list (bytes * obj) := [].
Definition MarkInfo_calls : Type := list (or_raw MarkInfo_call).
Definition MarkInfo_obj (cs : MarkInfo_calls) : obj := dict_writer MarkInfo_header MarkInfo_entries cs.
