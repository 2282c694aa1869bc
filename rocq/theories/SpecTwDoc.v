(** Specification of typed writers: document structure: the entries of every method, from its signature and documentation,
    and the conditions on its arguments. *)

From Coq Require Import ZArith List Bool.
From Verif Require ModelContent ModelCmap.
From Verif Require Import Bytes ModelFloat ModelBuf ModelObject ModelColor ModelSmall ModelPdf ModelTw ModelEnums ModelRoles ModelTwArgs ModelTwFiles ModelTwGraphics ModelTwAnnot ModelTwForms ModelTwAttr ModelTwXObj ModelTwFonts ModelTwDoc SpecLex SpecObj SpecText SpecMeans SpecPdf SpecTyped SpecColor SpecSmall SpecTw SpecEnums SpecRoles SpecTwArgs SpecTwFiles SpecTwGraphics SpecTwAnnot SpecTwForms SpecTwAttr SpecTwXObj SpecTwFonts.
Import ListNotations.
Local Open Scope Z_scope.

(** ** DeveloperExtension *)

(** Written by the constructor. *)
Definition DeveloperExtension_head : list entry_spec := [(lit "Type", is_name (lit "DeveloperExtensions"))].
Definition DeveloperExtension_doc (c : DeveloperExtension_call) : list entry_spec :=
  match c with
  | DeveloperExtension_base_version major minor => [(lit "BaseVersion", is_version major minor)]
  | DeveloperExtension_extension_level level => [(lit "ExtensionLevel", is_int level)]
  end.
Definition DeveloperExtension_call_ok (c : DeveloperExtension_call) : bool :=
  match c with
  | DeveloperExtension_base_version major minor => u8_ok major && u8_ok minor
  | DeveloperExtension_extension_level level => in_i32 level
  end.
Definition DeveloperExtension_reads (cs : DeveloperExtension_calls) : val -> Prop := writer_reads DeveloperExtension_head DeveloperExtension_doc cs.
Definition DeveloperExtension_ok (cs : DeveloperExtension_calls) : bool := forallb (raw_ok DeveloperExtension_call_ok) cs.

(** A sample: every method once. *)
Definition DeveloperExtension_sample : DeveloperExtension_calls := [
  Typed (DeveloperExtension_base_version 12 12); Typed (DeveloperExtension_extension_level (-3)); Raw (lit "Extra") (OArray [OPrim (PBool true)])].

(** ** ViewerPreferences *)

(** Written by the constructor: nothing. *)
Definition ViewerPreferences_head : list entry_spec := [].
Definition ViewerPreferences_doc (c : ViewerPreferences_call) : list entry_spec :=
  match c with
  | ViewerPreferences_hide_toolbar hide => [(lit "HideToolbar", is_bool hide)]
  | ViewerPreferences_hide_menubar hide => [(lit "HideMenubar", is_bool hide)]
  | ViewerPreferences_fit_window fit => [(lit "FitWindow", is_bool fit)]
  | ViewerPreferences_center_window center => [(lit "CenterWindow", is_bool center)]
  | ViewerPreferences_display_doc_title display => [(lit "DisplayDocTitle", is_bool display)]
  | ViewerPreferences_non_full_screen_page_mode mode => [(lit "NonFullScreenPageMode", is_PageMode mode)]
  | ViewerPreferences_direction dir => [(lit "Direction", is_Direction dir)]
  end.
Definition ViewerPreferences_call_ok (c : ViewerPreferences_call) : bool :=
  match c with
  | ViewerPreferences_hide_toolbar _ => true
  | ViewerPreferences_hide_menubar _ => true
  | ViewerPreferences_fit_window _ => true
  | ViewerPreferences_center_window _ => true
  | ViewerPreferences_display_doc_title _ => true
  | ViewerPreferences_non_full_screen_page_mode _ => true
  | ViewerPreferences_direction _ => true
  end.
(** The calls that do not panic. *)
Definition ViewerPreferences_call_allowed (c : ViewerPreferences_call) : Prop :=
  match c with
  | ViewerPreferences_hide_toolbar _ => True
  | ViewerPreferences_hide_menubar _ => True
  | ViewerPreferences_fit_window _ => True
  | ViewerPreferences_center_window _ => True
  | ViewerPreferences_display_doc_title _ => True
  | ViewerPreferences_non_full_screen_page_mode mode => mode <> PageMode_FullScreen
  | ViewerPreferences_direction _ => True
  end.
Definition ViewerPreferences_reads (cs : ViewerPreferences_calls) : val -> Prop := writer_reads ViewerPreferences_head ViewerPreferences_doc cs.
Definition ViewerPreferences_ok (cs : ViewerPreferences_calls) : bool := forallb (raw_ok ViewerPreferences_call_ok) cs.
Definition ViewerPreferences_allowed (cs : ViewerPreferences_calls) : Prop := Forall (raw_allowed ViewerPreferences_call_allowed) cs.

(** A sample: every method once. *)
Definition ViewerPreferences_sample : ViewerPreferences_calls := [
  Typed (ViewerPreferences_hide_toolbar true); Typed (ViewerPreferences_hide_menubar true); Typed (ViewerPreferences_fit_window true); Typed (ViewerPreferences_center_window true); Typed (ViewerPreferences_display_doc_title true); Typed (ViewerPreferences_non_full_screen_page_mode PageMode_UseThumbs); Typed (ViewerPreferences_direction Direction_R2L); Raw (lit "Extra") (OArray [OPrim (PBool true)])].

(** ** PageLabel *)

(** Written by the constructor. *)
Definition PageLabel_head : list entry_spec := [(lit "Type", is_name (lit "PageLabel"))].
Definition PageLabel_doc (c : PageLabel_call) : list entry_spec :=
  match c with
  | PageLabel_style style => [(lit "S", is_NumberingStyle style)]
  | PageLabel_prefix prefix => [(lit "P", is_textlike prefix)]
  | PageLabel_offset offset => [(lit "St", is_int offset)]
  end.
Definition PageLabel_call_ok (c : PageLabel_call) : bool :=
  match c with
  | PageLabel_style _ => true
  | PageLabel_prefix prefix => textlike_ok prefix
  | PageLabel_offset offset => in_i32 offset
  end.
Definition PageLabel_reads (cs : PageLabel_calls) : val -> Prop := writer_reads PageLabel_head PageLabel_doc cs.
Definition PageLabel_ok (cs : PageLabel_calls) : bool := forallb (raw_ok PageLabel_call_ok) cs.

(** A sample: every method once. *)
Definition PageLabel_sample : PageLabel_calls := [
  Typed (PageLabel_style NumberingStyle_UpperAlpha); Typed (PageLabel_prefix (TextPlain [97; 128512])); Typed (PageLabel_offset (-3)); Raw (lit "Extra") (OArray [OPrim (PBool true)])].

(** ** DocumentInfo *)

(** Written by the constructor: nothing. *)
Definition DocumentInfo_head : list entry_spec := [].
Definition DocumentInfo_doc (c : DocumentInfo_call) : list entry_spec :=
  match c with
  | DocumentInfo_title title => [(lit "Title", is_textlike title)]
  | DocumentInfo_author author => [(lit "Author", is_textlike author)]
  | DocumentInfo_subject subject => [(lit "Subject", is_textlike subject)]
  | DocumentInfo_keywords keywords => [(lit "Keywords", is_textlike keywords)]
  | DocumentInfo_creator creator => [(lit "Creator", is_textlike creator)]
  | DocumentInfo_producer producer => [(lit "Producer", is_textlike producer)]
  | DocumentInfo_creation_date date => [(lit "CreationDate", is_date_of date)]
  | DocumentInfo_modified_date date => [(lit "ModDate", is_date_of date)]
  | DocumentInfo_trapped trapped => [(lit "Trapped", is_TrappingStatus trapped)]
  end.
Definition DocumentInfo_call_ok (c : DocumentInfo_call) : bool :=
  match c with
  | DocumentInfo_title title => textlike_ok title
  | DocumentInfo_author author => textlike_ok author
  | DocumentInfo_subject subject => textlike_ok subject
  | DocumentInfo_keywords keywords => textlike_ok keywords
  | DocumentInfo_creator creator => textlike_ok creator
  | DocumentInfo_producer producer => textlike_ok producer
  | DocumentInfo_creation_date date => date_ok date
  | DocumentInfo_modified_date date => date_ok date
  | DocumentInfo_trapped _ => true
  end.
Definition DocumentInfo_reads (cs : DocumentInfo_calls) : val -> Prop := writer_reads DocumentInfo_head DocumentInfo_doc cs.
Definition DocumentInfo_ok (cs : DocumentInfo_calls) : bool := forallb (raw_ok DocumentInfo_call_ok) cs.

(** A sample: every method once. *)
Definition DocumentInfo_sample : DocumentInfo_calls := [
  Typed (DocumentInfo_title (TextPlain [97; 128512])); Typed (DocumentInfo_author (TextPlain [97; 128512])); Typed (DocumentInfo_subject (TextPlain [97; 128512])); Typed (DocumentInfo_keywords (TextPlain [97; 128512])); Typed (DocumentInfo_creator (TextPlain [97; 128512])); Typed (DocumentInfo_producer (TextPlain [97; 128512])); Typed (DocumentInfo_creation_date (date_new 2024)); Typed (DocumentInfo_modified_date (date_new 2024)); Typed (DocumentInfo_trapped TrappingStatus_Unknown); Raw (lit "Extra") (OArray [OPrim (PBool true)])].

(** ** Transition *)

(** Written by the constructor. *)
Definition Transition_head : list entry_spec := [(lit "Type", is_name (lit "Trans"))].
Definition Transition_doc (c : Transition_call) : list entry_spec :=
  match c with
  | Transition_style kind => [(lit "S", is_TransitionStyle kind)]
  | Transition_duration seconds => [(lit "D", is_real seconds)]
  | Transition_dimension vertical => [(lit "Dm", is_name (if vertical then lit "V" else lit "H"))]
  | Transition_direction outward => [(lit "M", is_name (if outward then lit "O" else lit "I"))]
  | Transition_angle angle => [(lit "Di", is_TransitionAngle angle)]
  | Transition_scale scale => [(lit "SS", is_real scale)]
  | Transition_opaque opaque => [(lit "F", is_real opaque)]   (* the documentation says B; ISO 32000 wants a boolean: see C50_opaque_refuted *)
  end.
Definition Transition_call_ok (c : Transition_call) : bool :=
  match c with
  | Transition_style _ => true
  | Transition_duration seconds => real_ok seconds
  | Transition_dimension _ => true
  | Transition_direction _ => true
  | Transition_angle _ => true
  | Transition_scale scale => real_ok scale
  | Transition_opaque opaque => real_ok opaque
  end.
Definition Transition_reads (cs : Transition_calls) : val -> Prop := writer_reads Transition_head Transition_doc cs.
Definition Transition_ok (cs : Transition_calls) : bool := forallb (raw_ok Transition_call_ok) cs.

(** A sample: every method once. *)
Definition Transition_sample : Transition_calls := [
  Typed (Transition_style TransitionStyle_Fade); Typed (Transition_duration (FFin false 8388608 (-23))); Typed (Transition_dimension true); Typed (Transition_direction true); Typed (Transition_angle TransitionAngle_TopToBottom); Typed (Transition_scale (FFin false 8388608 (-23))); Typed (Transition_opaque (FFin false 8388608 (-23))); Raw (lit "Extra") (OArray [OPrim (PBool true)])].

(** ** Names *)

(** Written by the constructor: nothing. *)
Definition Names_head : list entry_spec := [].
Definition Names_doc (c : Names_call) : list entry_spec :=
  match c with
  | Names_destinations x => [(lit "Dests", is_name_tree x)]
  | Names_appearances x => [(lit "AP", is_name_tree x)]
  | Names_javascript x => [(lit "JavaScript", is_name_tree x)]
  | Names_pages x => [(lit "Pages", is_name_tree x)]
  | Names_templates x => [(lit "Templates", is_name_tree x)]
  | Names_capture_ids x => [(lit "IDS", is_name_tree x)]
  | Names_capture_urls x => [(lit "URLS", is_name_tree x)]
  | Names_embedded_files x => [(lit "EmbeddedFiles", is_name_tree x)]
  | Names_alternate_presentations x => [(lit "AlternatePresentations", is_name_tree x)]
  | Names_renditions x => [(lit "Renditions", is_name_tree x)]
  end.
Definition Names_call_ok (c : Names_call) : bool :=
  match c with
  | Names_destinations x => forallb name_tree_ok x
  | Names_appearances x => forallb name_tree_ok x
  | Names_javascript x => forallb name_tree_ok x
  | Names_pages x => forallb name_tree_ok x
  | Names_templates x => forallb name_tree_ok x
  | Names_capture_ids x => forallb name_tree_ok x
  | Names_capture_urls x => forallb name_tree_ok x
  | Names_embedded_files x => forallb name_tree_ok x
  | Names_alternate_presentations x => forallb name_tree_ok x
  | Names_renditions x => forallb name_tree_ok x
  end.
Definition Names_reads (cs : Names_calls) : val -> Prop := writer_reads Names_head Names_doc cs.
Definition Names_ok (cs : Names_calls) : bool := forallb (raw_ok Names_call_ok) cs.

(** A sample: every method once. *)
Definition Names_sample : Names_calls := [
  Typed (Names_destinations [NtNames [(lit "a", PRef 3)]]); Typed (Names_appearances [NtNames [(lit "a", PRef 3)]]); Typed (Names_javascript [NtNames [(lit "a", PRef 3)]]); Typed (Names_pages [NtNames [(lit "a", PRef 3)]]); Typed (Names_templates [NtNames [(lit "a", PRef 3)]]); Typed (Names_capture_ids [NtNames [(lit "a", PRef 3)]]); Typed (Names_capture_urls [NtNames [(lit "a", PRef 3)]]); Typed (Names_embedded_files [NtNames [(lit "a", PRef 3)]]); Typed (Names_alternate_presentations [NtNames [(lit "a", PRef 3)]]); Typed (Names_renditions [NtNames [(lit "a", PRef 3)]]); Raw (lit "Extra") (OArray [OPrim (PBool true)])].

(** ** Pages *)

(** Written by the constructor. *)
Definition Pages_head : list entry_spec := [(lit "Type", is_name (lit "Pages"))].
Definition Pages_doc (c : Pages_call) : list entry_spec :=
  match c with
  | Pages_parent parent => [(lit "Parent", is_ref parent)]
  | Pages_kids kids => [(lit "Kids", is_refs kids)]
  | Pages_count count => [(lit "Count", is_int count)]
  | Pages_media_box rect => [(lit "MediaBox", is_rect rect)]
  | Pages_resources calls => [(lit "Resources", Resources_reads calls)]
  end.
Definition Pages_call_ok (c : Pages_call) : bool :=
  match c with
  | Pages_parent parent => ref_ok parent
  | Pages_kids kids => forallb ref_ok kids
  | Pages_count count => in_i32 count
  | Pages_media_box rect => rect_ok rect
  | Pages_resources calls => Resources_ok calls
  end.
Definition Pages_reads (cs : Pages_calls) : val -> Prop := writer_reads Pages_head Pages_doc cs.
Definition Pages_ok (cs : Pages_calls) : bool := forallb (raw_ok Pages_call_ok) cs.

(** A sample: every method once. *)
Definition Pages_sample : Pages_calls := [
  Typed (Pages_parent 7); Typed (Pages_kids [3; 4]); Typed (Pages_count (-3)); Typed (Pages_media_box (mkRect f32_zero f32_zero (FFin false 8388608 (-23)) (FFin false 8388608 (-23)))); Typed (Pages_resources Resources_sample); Raw (lit "Extra") (OArray [OPrim (PBool true)])].

(** ** Page *)

(** Written by the constructor. *)
Definition Page_head : list entry_spec := [(lit "Type", is_name (lit "Page"))].
Definition Page_doc (c : Page_call) : list entry_spec :=
  match c with
  | Page_parent parent => [(lit "Parent", is_ref parent)]
  | Page_last_modified date => [(lit "LastModified", is_date_of date)]
  | Page_media_box rect => [(lit "MediaBox", is_rect rect)]
  | Page_crop_box rect => [(lit "CropBox", is_rect rect)]
  | Page_bleed_box rect => [(lit "BleedBox", is_rect rect)]
  | Page_trim_box rect => [(lit "TrimBox", is_rect rect)]
  | Page_art_box rect => [(lit "ArtBox", is_rect rect)]
  | Page_resources calls => [(lit "Resources", Resources_reads calls)]
  | Page_contents id => [(lit "Contents", is_ref id)]
  | Page_contents_array ids => [(lit "Contents", is_refs ids)]
  | Page_rotate degrees => [(lit "Rotate", is_int degrees)]
  | Page_group calls => [(lit "Group", Group_reads calls)]
  | Page_thumbnail id => [(lit "Thumb", is_ref id)]
  | Page_duration seconds => [(lit "Dur", is_real seconds)]
  | Page_transition calls => [(lit "Trans", Transition_reads calls)]
  | Page_annotations ids => [(lit "Annots", is_refs ids)]
  | Page_struct_parents key => [(lit "StructParents", is_int key)]
  | Page_tab_order order => [(lit "Tabs", is_TabOrder order)]
  | Page_user_unit value => [(lit "UserUnit", is_real value)]
  | Page_additional_actions calls => [(lit "AA", AdditionalActions_reads calls)]
  | Page_metadata id => [(lit "Metadata", is_ref id)]
  | Page_associated_files items => [(lit "AF", is_array_of FileSpec_reads items)]
  end.
Definition Page_call_ok (c : Page_call) : bool :=
  match c with
  | Page_parent parent => ref_ok parent
  | Page_last_modified date => date_ok date
  | Page_media_box rect => rect_ok rect
  | Page_crop_box rect => rect_ok rect
  | Page_bleed_box rect => rect_ok rect
  | Page_trim_box rect => rect_ok rect
  | Page_art_box rect => rect_ok rect
  | Page_resources calls => Resources_ok calls
  | Page_contents id => ref_ok id
  | Page_contents_array ids => forallb ref_ok ids
  | Page_rotate degrees => in_i32 degrees
  | Page_group calls => Group_ok calls
  | Page_thumbnail id => ref_ok id
  | Page_duration seconds => real_ok seconds
  | Page_transition calls => Transition_ok calls
  | Page_annotations ids => forallb ref_ok ids
  | Page_struct_parents key => in_i32 key
  | Page_tab_order _ => true
  | Page_user_unit value => real_ok value
  | Page_additional_actions calls => AdditionalActions_ok calls
  | Page_metadata id => ref_ok id
  | Page_associated_files items => forallb FileSpec_ok items
  end.
(** The calls that do not panic. *)
Definition Page_call_allowed (c : Page_call) : Prop :=
  match c with
  | Page_parent _ => True
  | Page_last_modified _ => True
  | Page_media_box _ => True
  | Page_crop_box _ => True
  | Page_bleed_box _ => True
  | Page_trim_box _ => True
  | Page_art_box _ => True
  | Page_resources _ => True
  | Page_contents _ => True
  | Page_contents_array _ => True
  | Page_rotate _ => True
  | Page_group calls => Group_allowed calls
  | Page_thumbnail _ => True
  | Page_duration _ => True
  | Page_transition _ => True
  | Page_annotations _ => True
  | Page_struct_parents _ => True
  | Page_tab_order _ => True
  | Page_user_unit _ => True
  | Page_additional_actions _ => True
  | Page_metadata _ => True
  | Page_associated_files _ => True
  end.
Definition Page_reads (cs : Page_calls) : val -> Prop := writer_reads Page_head Page_doc cs.
Definition Page_ok (cs : Page_calls) : bool := forallb (raw_ok Page_call_ok) cs.
Definition Page_allowed (cs : Page_calls) : Prop := Forall (raw_allowed Page_call_allowed) cs.

(** A sample: every method once. *)
Definition Page_sample : Page_calls := [
  Typed (Page_parent 7); Typed (Page_last_modified (date_new 2024)); Typed (Page_media_box (mkRect f32_zero f32_zero (FFin false 8388608 (-23)) (FFin false 8388608 (-23)))); Typed (Page_crop_box (mkRect f32_zero f32_zero (FFin false 8388608 (-23)) (FFin false 8388608 (-23)))); Typed (Page_bleed_box (mkRect f32_zero f32_zero (FFin false 8388608 (-23)) (FFin false 8388608 (-23)))); Typed (Page_trim_box (mkRect f32_zero f32_zero (FFin false 8388608 (-23)) (FFin false 8388608 (-23)))); Typed (Page_art_box (mkRect f32_zero f32_zero (FFin false 8388608 (-23)) (FFin false 8388608 (-23)))); Typed (Page_resources Resources_sample); Typed (Page_contents 7); Typed (Page_contents_array [3; 4]); Typed (Page_rotate (-3)); Typed (Page_group Group_sample); Typed (Page_thumbnail 7); Typed (Page_duration (FFin false 8388608 (-23))); Typed (Page_transition Transition_sample); Typed (Page_annotations [3; 4]); Typed (Page_struct_parents (-3)); Typed (Page_tab_order TabOrder_StructureOrder); Typed (Page_user_unit (FFin false 8388608 (-23))); Typed (Page_additional_actions AdditionalActions_sample); Typed (Page_metadata 7); Typed (Page_associated_files [FileSpec_sample; []]); Raw (lit "Extra") (OArray [OPrim (PBool true)])].

(** ** Outline *)

(** Written by the constructor. *)
Definition Outline_head : list entry_spec := [(lit "Type", is_name (lit "Outlines"))].
Definition Outline_doc (c : Outline_call) : list entry_spec :=
  match c with
  | Outline_first item => [(lit "First", is_ref item)]
  | Outline_last item => [(lit "Last", is_ref item)]
  | Outline_count count => [(lit "Count", is_int count)]
  end.
Definition Outline_call_ok (c : Outline_call) : bool :=
  match c with
  | Outline_first item => ref_ok item
  | Outline_last item => ref_ok item
  | Outline_count count => in_i32 count
  end.
(** The calls that do not panic. *)
Definition Outline_call_allowed (c : Outline_call) : Prop :=
  match c with
  | Outline_first _ => True
  | Outline_last _ => True
  | Outline_count count => 0 <= count
  end.
Definition Outline_reads (cs : Outline_calls) : val -> Prop := writer_reads Outline_head Outline_doc cs.
Definition Outline_ok (cs : Outline_calls) : bool := forallb (raw_ok Outline_call_ok) cs.
Definition Outline_allowed (cs : Outline_calls) : Prop := Forall (raw_allowed Outline_call_allowed) cs.

(** A sample: every method once. *)
Definition Outline_sample : Outline_calls := [
  Typed (Outline_first 7); Typed (Outline_last 7); Typed (Outline_count 2); Raw (lit "Extra") (OArray [OPrim (PBool true)])].

(** ** OutlineItem *)

(** Written by the constructor: nothing. *)
Definition OutlineItem_head : list entry_spec := [].
Definition OutlineItem_doc (c : OutlineItem_call) : list entry_spec :=
  match c with
  | OutlineItem_title title => [(lit "Title", is_textlike title)]
  | OutlineItem_parent outline => [(lit "Parent", is_ref outline)]
  | OutlineItem_prev outline => [(lit "Prev", is_ref outline)]
  | OutlineItem_next outline => [(lit "Next", is_ref outline)]
  | OutlineItem_first outline => [(lit "First", is_ref outline)]
  | OutlineItem_last outline => [(lit "Last", is_ref outline)]
  | OutlineItem_count items => [(lit "Count", is_int items)]
  | OutlineItem_dest calls => [(lit "Dest", Destination_reads calls)]
  | OutlineItem_dest_name name => [(lit "Dest", is_name name)]
  | OutlineItem_color_rgb r g b => [(lit "C", is_reals [r; g; b])]
  | OutlineItem_flags flags => [(lit "F", is_flags OutlineItemFlags_pos flags)]
  end.
Definition OutlineItem_call_ok (c : OutlineItem_call) : bool :=
  match c with
  | OutlineItem_title title => textlike_ok title
  | OutlineItem_parent outline => ref_ok outline
  | OutlineItem_prev outline => ref_ok outline
  | OutlineItem_next outline => ref_ok outline
  | OutlineItem_first outline => ref_ok outline
  | OutlineItem_last outline => ref_ok outline
  | OutlineItem_count items => in_i32 items
  | OutlineItem_dest calls => Destination_ok calls
  | OutlineItem_dest_name name => name_ok name
  | OutlineItem_color_rgb r g b => real_ok r && real_ok g && real_ok b
  | OutlineItem_flags _ => true
  end.
Definition OutlineItem_reads (cs : OutlineItem_calls) : val -> Prop := writer_reads OutlineItem_head OutlineItem_doc cs.
Definition OutlineItem_ok (cs : OutlineItem_calls) : bool := forallb (raw_ok OutlineItem_call_ok) cs.

(** A sample: every method once. *)
Definition OutlineItem_sample : OutlineItem_calls := [
  Typed (OutlineItem_title (TextPlain [97; 128512])); Typed (OutlineItem_parent 7); Typed (OutlineItem_prev 7); Typed (OutlineItem_next 7); Typed (OutlineItem_first 7); Typed (OutlineItem_last 7); Typed (OutlineItem_count (-3)); Typed (OutlineItem_dest Destination_sample); Typed (OutlineItem_dest_name (lit "a b")); Typed (OutlineItem_color_rgb (FFin false 8388608 (-23)) (FFin false 8388608 (-23)) (FFin false 8388608 (-23))); Typed (OutlineItem_flags [OutlineItemFlags_Italic; OutlineItemFlags_Bold]); Raw (lit "Extra") (OArray [OPrim (PBool true)])].

(** ** Catalog *)

(** Written by the constructor. *)
Definition Catalog_head : list entry_spec := [(lit "Type", is_name (lit "Catalog"))].
Definition Catalog_doc (c : Catalog_call) : list entry_spec :=
  match c with
  | Catalog_pages id => [(lit "Pages", is_ref id)]
  | Catalog_page_layout layout => [(lit "PageLayout", is_PageLayout layout)]
  | Catalog_page_labels x => [(lit "PageLabels", is_number_tree x)]
  | Catalog_page_mode mode => [(lit "PageMode", is_PageMode mode)]
  | Catalog_viewer_preferences calls => [(lit "ViewerPreferences", ViewerPreferences_reads calls)]
  | Catalog_names calls => [(lit "Names", Names_reads calls)]
  | Catalog_destinations id => [(lit "Dests", is_ref id)]
  | Catalog_outlines id => [(lit "Outlines", is_ref id)]
  | Catalog_struct_tree_root calls => [(lit "StructTreeRoot", StructTreeRoot_reads calls)]
  | Catalog_mark_info calls => [(lit "MarkInfo", MarkInfo_reads calls)]
  | Catalog_lang lang => [(lit "Lang", is_text lang)]
  | Catalog_version major minor => [(lit "Version", is_version major minor)]
  | Catalog_additional_actions calls => [(lit "AA", AdditionalActions_reads calls)]
  | Catalog_form calls => [(lit "AcroForm", Form_reads calls)]
  | Catalog_metadata id => [(lit "Metadata", is_ref id)]
  | Catalog_extensions items => [(lit "Extensions", is_dict_of DeveloperExtension_reads items)]
  | Catalog_separation_info calls => [(lit "SeparationInfo", SeparationInfo_reads calls)]
  | Catalog_output_intents items => [(lit "OutputIntents", is_array_of OutputIntent_reads items)]
  | Catalog_associated_files items => [(lit "AF", is_array_of FileSpec_reads items)]
  end.
Definition Catalog_call_ok (c : Catalog_call) : bool :=
  match c with
  | Catalog_pages id => ref_ok id
  | Catalog_page_layout _ => true
  | Catalog_page_labels x => forallb number_tree_ok x
  | Catalog_page_mode _ => true
  | Catalog_viewer_preferences calls => ViewerPreferences_ok calls
  | Catalog_names calls => Names_ok calls
  | Catalog_destinations id => ref_ok id
  | Catalog_outlines id => ref_ok id
  | Catalog_struct_tree_root calls => StructTreeRoot_ok calls
  | Catalog_mark_info calls => MarkInfo_ok calls
  | Catalog_lang lang => text_ok lang
  | Catalog_version major minor => u8_ok major && u8_ok minor
  | Catalog_additional_actions calls => AdditionalActions_ok calls
  | Catalog_form calls => Form_ok calls
  | Catalog_metadata id => ref_ok id
  | Catalog_extensions items => dict_ok DeveloperExtension_ok items
  | Catalog_separation_info calls => SeparationInfo_ok calls
  | Catalog_output_intents items => forallb OutputIntent_ok items
  | Catalog_associated_files items => forallb FileSpec_ok items
  end.
(** The calls that do not panic. *)
Definition Catalog_call_allowed (c : Catalog_call) : Prop :=
  match c with
  | Catalog_pages _ => True
  | Catalog_page_layout _ => True
  | Catalog_page_labels _ => True
  | Catalog_page_mode _ => True
  | Catalog_viewer_preferences calls => ViewerPreferences_allowed calls
  | Catalog_names _ => True
  | Catalog_destinations _ => True
  | Catalog_outlines _ => True
  | Catalog_struct_tree_root _ => True
  | Catalog_mark_info _ => True
  | Catalog_lang _ => True
  | Catalog_version _ _ => True
  | Catalog_additional_actions _ => True
  | Catalog_form _ => True
  | Catalog_metadata _ => True
  | Catalog_extensions _ => True
  | Catalog_separation_info calls => SeparationInfo_allowed calls
  | Catalog_output_intents _ => True
  | Catalog_associated_files _ => True
  end.
Definition Catalog_reads (cs : Catalog_calls) : val -> Prop := writer_reads Catalog_head Catalog_doc cs.
Definition Catalog_ok (cs : Catalog_calls) : bool := forallb (raw_ok Catalog_call_ok) cs.
Definition Catalog_allowed (cs : Catalog_calls) : Prop := Forall (raw_allowed Catalog_call_allowed) cs.

(** A sample: every method once. *)
Definition Catalog_sample : Catalog_calls := [
  Typed (Catalog_pages 7); Typed (Catalog_page_layout PageLayout_TwoPageRight); Typed (Catalog_page_labels [MtNums [(0, PRef 3)]]); Typed (Catalog_page_mode PageMode_UseAttachments); Typed (Catalog_viewer_preferences ViewerPreferences_sample); Typed (Catalog_names Names_sample); Typed (Catalog_destinations 7); Typed (Catalog_outlines 7); Typed (Catalog_struct_tree_root StructTreeRoot_sample); Typed (Catalog_mark_info MarkInfo_sample); Typed (Catalog_lang [960; 65]); Typed (Catalog_version 12 12); Typed (Catalog_additional_actions AdditionalActions_sample); Typed (Catalog_form Form_sample); Typed (Catalog_metadata 7); Typed (Catalog_extensions [(lit "K1", DeveloperExtension_sample)]); Typed (Catalog_separation_info SeparationInfo_sample); Typed (Catalog_output_intents [OutputIntent_sample; []]); Typed (Catalog_associated_files [FileSpec_sample; []]); Raw (lit "Extra") (OArray [OPrim (PBool true)])].
