(** Specification: no dictionary has a key twice.

    The standard leaves open what a reader does with a dictionary in which a key occurs twice.  The writers do not check for this.  They need not,
    as long as the caller sets nothing twice: different methods that set different things write different keys, and none of them writes a key
    that the constructor has written. *)

From Coq Require Import ZArith List Bool.
From Verif Require ModelContent ModelCmap.
From Verif Require Import Bytes ModelFloat ModelBuf ModelObject ModelColor ModelSmall ModelPdf ModelTw ModelEnums ModelRoles ModelTwArgs ModelTwFiles ModelTwGraphics ModelTwAnnot ModelTwForms ModelTwAttr ModelTwXObj ModelTwFonts ModelTwDoc.
Import ListNotations.
Local Open Scope Z_scope.

(** The calls of the writer's own methods, and the keys of the entries inserted with the untyped methods. *)
Definition typed_calls {C} (cs : list (or_raw C)) : list C := flat_map (fun c => match c with Typed c => [c] | Raw _ _ => [] end) cs.
Definition raw_keys {C} (cs : list (or_raw C)) : list bytes := flat_map (fun c => match c with Typed _ => [] | Raw k _ => [k] end) cs.
Definition keys (o : obj) : list bytes := match o with ODict es => map fst es | _ => [] end.
Definition every {C} (c : C) : bool := true.

(** [sets c] names what the call [c] sets.  If nothing is set twice, and the keys that are inserted untyped are different from each other and from
    those the writer's own methods and constructor write, then no key occurs twice.  The names are not too coarse: if no key occurs twice, then
    nothing was set twice. *)
Definition never_twice {C} (own : C -> bool) (sets : C -> list bytes) (written : list (or_raw C) -> option obj) : Prop :=
  (forall cs typed o,
    forallb own (typed_calls cs) = true ->
    NoDup (flat_map sets (typed_calls cs)) ->
    written (map Typed (typed_calls cs)) = Some typed ->
    NoDup (raw_keys cs) -> (forall k, In k (raw_keys cs) -> ~ In k (keys typed)) ->
    written cs = Some o ->
    exists es, o = ODict es /\ NoDup (map fst es)) /\
  (forall cs es, forallb own cs = true -> written (map Typed cs) = Some (ODict es) -> NoDup (map fst es) -> NoDup (flat_map sets cs)).
(** For writers without untyped methods. *)
Definition never_twice_typed {C} (sets : C -> list bytes) (written : list C -> option obj) : Prop :=
  (forall cs o, NoDup (flat_map sets cs) -> written cs = Some o -> exists es, o = ODict es /\ NoDup (map fst es)) /\
  (forall cs es, written cs = Some (ODict es) -> NoDup (map fst es) -> NoDup (flat_map sets cs)).

(** Streams: there are the methods of [Stream], too, and the entry [/Length] comes first. *)
Definition stream_call_typed {C} (c : or_stream Stream_call C) : bool := match c with SRaw _ _ => false | _ => true end.
Definition stream_raw_keys {C} (cs : list (or_stream Stream_call C)) : list bytes :=
  flat_map (fun c => match c with SRaw k _ => [k] | _ => [] end) cs.
Definition Stream_sets (c : Stream_call) : list bytes :=
  match c with
  | Stream_filter _ => [lit "filter"]
  | Stream_decode_parms _ => [lit "decode_parms"]
  end.
Definition stream_call_sets {C} (sets : C -> list bytes) (c : or_stream Stream_call C) : list bytes :=
  match c with STyped c => sets c | SStream s => Stream_sets s | SRaw _ _ => [] end.
Definition never_twice_in_stream {C} (sets : C -> list bytes) (dict : list (or_stream Stream_call C) -> option (list (bytes * obj))) : Prop :=
  (forall cs typed es,
    NoDup (flat_map (stream_call_sets sets) cs) ->
    dict (List.filter stream_call_typed cs) = Some typed ->
    NoDup (stream_raw_keys cs) -> (forall k, In k (stream_raw_keys cs) -> ~ In k (lit "Length" :: map fst typed)) ->
    dict cs = Some es ->
    NoDup (lit "Length" :: map fst es)) /\
  (forall cs es, forallb stream_call_typed cs = true -> dict cs = Some es -> NoDup (map fst es) -> NoDup (flat_map (stream_call_sets sets) cs)).

(** ** What each method sets

    The name is that of the method, without the variant if there are several methods for the same thing.  Four pairs of methods share a name although
    they set different things: [annot_page_close] writes the key of [annot_page_visible] (C48), [signature_policy_commitment_type] that of
    [signature_policy_hash_algorithm] and [appearance_filter] that of [lock_document] (C52); [page_close] and [form_calculate] are for
    different objects. *)

Definition MediaPermissions_sets (c : MediaPermissions_call) : list bytes :=
  match c with
  | MediaPermissions_temp_file _ => [lit "temp_file"]
  end.

Definition MediaPlayParams_sets (c : MediaPlayParams_call) : list bytes :=
  match c with
  | MediaPlayParams_controls _ => [lit "controls"]
  end.

Definition MediaClip_sets (c : MediaClip_call) : list bytes :=
  match c with
  | MediaClip_subtype _ => [lit "subtype"]
  | MediaClip_name _ => [lit "name"]
  | MediaClip_data _ => [lit "data"]
  | MediaClip_data_type _ => [lit "data_type"]
  | MediaClip_permissions _ => [lit "permissions"]
  | MediaClip_alt_texts _ => [lit "alt_texts"]
  end.

Definition Rendition_sets (c : Rendition_call) : list bytes :=
  match c with
  | Rendition_subtype _ => [lit "subtype"]
  | Rendition_name _ => [lit "name"]
  | Rendition_media_clip _ => [lit "media_clip"]
  | Rendition_media_play_params _ => [lit "media_play_params"]
  end.

Definition Action_sets (c : Action_call) : list bytes :=
  match c with
  | Action_action_type _ => [lit "action_type"]
  | Action_destination _ => [lit "destination"]
  | Action_destination_named _ => [lit "destination"]
  | Action_file_spec _ => [lit "file_spec"]
  | Action_new_window _ => [lit "new_window"]
  | Action_uri _ => [lit "uri"]
  | Action_is_map _ => [lit "is_map"]
  | Action_js_string _ => [lit "javascript"]
  | Action_js_stream _ => [lit "javascript"]
  | Action_fields _ => [lit "fields"]
  | Action_form_flags _ => [lit "form_flags"]
  | Action_operation _ => [lit "operation"]
  | Action_annotation _ => [lit "annotation"]
  | Action_rendition _ => [lit "rendition"]
  end.

Definition AdditionalActions_sets (c : AdditionalActions_call) : list bytes :=
  match c with
  | AdditionalActions_annot_curser_enter _ => [lit "annot_curser_enter"]
  | AdditionalActions_annot_cursor_exit _ => [lit "annot_cursor_exit"]
  | AdditionalActions_annot_mouse_press _ => [lit "annot_mouse_press"]
  | AdditionalActions_annot_mouse_release _ => [lit "annot_mouse_release"]
  | AdditionalActions_annot_page_open _ => [lit "annot_page_open"]
  | AdditionalActions_annot_page_close _ => [lit "annot_page_visible"]
  | AdditionalActions_annot_page_visible _ => [lit "annot_page_visible"]
  | AdditionalActions_annot_page_invisible _ => [lit "annot_page_invisible"]
  | AdditionalActions_widget_focus _ => [lit "widget_focus"]
  | AdditionalActions_widget_focus_loss _ => [lit "widget_focus_loss"]
  | AdditionalActions_page_open _ => [lit "page_open"]
  | AdditionalActions_page_close _ => [lit "page_close / form_calculate"]
  | AdditionalActions_form_calculate_partial _ => [lit "form_calculate_partial"]
  | AdditionalActions_form_format _ => [lit "form_format"]
  | AdditionalActions_form_validate _ => [lit "form_validate"]
  | AdditionalActions_form_calculate _ => [lit "page_close / form_calculate"]
  | AdditionalActions_cat_before_close _ => [lit "cat_before_close"]
  | AdditionalActions_cat_before_save _ => [lit "cat_before_save"]
  | AdditionalActions_cat_after_save _ => [lit "cat_after_save"]
  | AdditionalActions_cat_before_print _ => [lit "cat_before_print"]
  | AdditionalActions_cat_after_print _ => [lit "cat_after_print"]
  end.

Definition Appearance_sets (c : Appearance_call) : list bytes :=
  match c with
  | Appearance_normal _ => [lit "normal"]
  | Appearance_rollover _ => [lit "rollover"]
  | Appearance_alternate _ => [lit "alternate"]
  end.

Definition IconFit_sets (c : IconFit_call) : list bytes :=
  match c with
  | IconFit_scale _ => [lit "scale"]
  | IconFit_scale_type _ => [lit "scale_type"]
  | IconFit_leftover_space _ _ => [lit "leftover_space"]
  | IconFit_fit_bounds _ => [lit "fit_bounds"]
  end.

Definition AppearanceCharacteristics_sets (c : AppearanceCharacteristics_call) : list bytes :=
  match c with
  | AppearanceCharacteristics_rotate _ => [lit "rotate"]
  | AppearanceCharacteristics_border_color_transparent => [lit "border_color"]
  | AppearanceCharacteristics_border_color_gray _ => [lit "border_color"]
  | AppearanceCharacteristics_border_color_rgb _ _ _ => [lit "border_color"]
  | AppearanceCharacteristics_border_color_cymk _ _ _ _ => [lit "border_color"]
  | AppearanceCharacteristics_background_color_transparent => [lit "background_color"]
  | AppearanceCharacteristics_background_color_gray _ => [lit "background_color"]
  | AppearanceCharacteristics_background_color_rgb _ _ _ => [lit "background_color"]
  | AppearanceCharacteristics_background_color_cymk _ _ _ _ => [lit "background_color"]
  | AppearanceCharacteristics_normal_caption _ => [lit "normal_caption"]
  | AppearanceCharacteristics_rollover_caption _ => [lit "rollover_caption"]
  | AppearanceCharacteristics_alternate_caption _ => [lit "alternate_caption"]
  | AppearanceCharacteristics_normal_icon _ => [lit "normal_icon"]
  | AppearanceCharacteristics_rollover_icon _ => [lit "rollover_icon"]
  | AppearanceCharacteristics_alternate_icon _ => [lit "alternate_icon"]
  | AppearanceCharacteristics_icon_fit _ => [lit "icon_fit"]
  | AppearanceCharacteristics_text_position _ => [lit "text_position"]
  end.

Definition BorderStyle_sets (c : BorderStyle_call) : list bytes :=
  match c with
  | BorderStyle_width _ => [lit "width"]
  | BorderStyle_style _ => [lit "style"]
  | BorderStyle_dashes _ => [lit "dashes"]
  end.

Definition Annotation_sets (c : Annotation_call) : list bytes :=
  match c with
  | Annotation_subtype _ => [lit "subtype"]
  | Annotation_rect _ => [lit "rect"]
  | Annotation_contents _ => [lit "contents"]
  | Annotation_page _ => [lit "page"]
  | Annotation_name _ => [lit "name"]
  | Annotation_modified _ => [lit "modified"]
  | Annotation_flags _ => [lit "flags"]
  | Annotation_appearance _ => [lit "appearance"]
  | Annotation_appearance_state _ => [lit "appearance_state"]
  | Annotation_border _ _ _ _ => [lit "border"]
  | Annotation_border_style _ => [lit "border_style"]
  | Annotation_color_transparent => [lit "color"]
  | Annotation_color_gray _ => [lit "color"]
  | Annotation_color_rgb _ _ _ => [lit "color"]
  | Annotation_color_cmyk _ _ _ _ => [lit "color"]
  | Annotation_struct_parent _ => [lit "struct_parent"]
  | Annotation_action _ => [lit "action"]
  | Annotation_additional_actions _ => [lit "additional_actions"]
  | Annotation_highlight _ => [lit "highlight"]
  | Annotation_author _ => [lit "author"]
  | Annotation_subject _ => [lit "subject"]
  | Annotation_quad_points _ => [lit "quad_points"]
  | Annotation_line_to _ _ _ _ => [lit "line_to"]
  | Annotation_file_spec _ => [lit "file_spec"]
  | Annotation_icon _ => [lit "icon"]
  | Annotation_appearance_characteristics _ => [lit "appearance_characteristics"]
  | Annotation_parent _ => [lit "parent"]
  | Annotation_associated_files _ => [lit "associated_files"]
  end.

Definition UserProperty_sets (c : UserProperty_call) : list bytes :=
  match c with
  | UserProperty_name _ => [lit "name"]
  | UserProperty_value _ => [lit "value"]
  | UserProperty_format _ => [lit "format"]
  | UserProperty_hidden _ => [lit "hidden"]
  end.

Definition LayoutAttributes_sets (c : LayoutAttributes_call) : list bytes :=
  match c with
  | LayoutAttributes_placement _ => [lit "placement"]
  | LayoutAttributes_writing_mode _ => [lit "writing_mode"]
  | LayoutAttributes_background_color _ => [lit "background_color"]
  | LayoutAttributes_border_color _ => [lit "border_color"]
  | LayoutAttributes_border_style _ => [lit "border_style"]
  | LayoutAttributes_border_thickness _ => [lit "border_thickness"]
  | LayoutAttributes_padding _ => [lit "padding"]
  | LayoutAttributes_color _ => [lit "color"]
  | LayoutAttributes_space_before _ => [lit "space_before"]
  | LayoutAttributes_space_after _ => [lit "space_after"]
  | LayoutAttributes_start_indent _ => [lit "start_indent"]
  | LayoutAttributes_end_indent _ => [lit "end_indent"]
  | LayoutAttributes_text_indent _ => [lit "text_indent"]
  | LayoutAttributes_text_align _ => [lit "text_align"]
  | LayoutAttributes_width _ => [lit "width"]
  | LayoutAttributes_height _ => [lit "height"]
  | LayoutAttributes_bbox _ => [lit "bbox"]
  | LayoutAttributes_block_align _ => [lit "block_align"]
  | LayoutAttributes_inline_align _ => [lit "inline_align"]
  | LayoutAttributes_table_border_style _ => [lit "table_border_style"]
  | LayoutAttributes_table_padding _ => [lit "table_padding"]
  | LayoutAttributes_column_count _ => [lit "column_count"]
  | LayoutAttributes_column_widths _ => [lit "column_widths"]
  | LayoutAttributes_column_gap _ => [lit "column_gap"]
  | LayoutAttributes_line_height _ => [lit "line_height"]
  | LayoutAttributes_baseline_shift _ => [lit "baseline_shift"]
  | LayoutAttributes_text_position _ => [lit "text_position"]
  | LayoutAttributes_text_decoration_type _ => [lit "text_decoration_type"]
  | LayoutAttributes_text_decoration_color _ => [lit "text_decoration_color"]
  | LayoutAttributes_text_decoration_thickness _ => [lit "text_decoration_thickness"]
  | LayoutAttributes_glyph_orientation_vertical _ => [lit "glyph_orientation_vertical"]
  | LayoutAttributes_ruby_align _ => [lit "ruby_align"]
  | LayoutAttributes_ruby_position _ => [lit "ruby_position"]
  end.

Definition ListAttributes_sets (c : ListAttributes_call) : list bytes :=
  match c with
  | ListAttributes_list_numbering _ => [lit "list_numbering"]
  | ListAttributes_continued_list _ => [lit "continued_list"]
  | ListAttributes_continued_from _ => [lit "continued_from"]
  end.

Definition FieldAttributes_sets (c : FieldAttributes_call) : list bytes :=
  match c with
  | FieldAttributes_role _ => [lit "role"]
  | FieldAttributes_checked _ pdf2 => [if pdf2 then lit "checked (PDF 2.0)" else lit "checked"]
  | FieldAttributes_description _ => [lit "description"]
  end.

Definition TableAttributes_sets (c : TableAttributes_call) : list bytes :=
  match c with
  | TableAttributes_row_span _ => [lit "row_span"]
  | TableAttributes_col_span _ => [lit "col_span"]
  | TableAttributes_headers _ => [lit "headers"]
  | TableAttributes_scope _ => [lit "scope"]
  | TableAttributes_summary _ => [lit "summary"]
  | TableAttributes_short _ => [lit "short"]
  end.

Definition ArtifactAttributes_sets (c : ArtifactAttributes_call) : list bytes :=
  match c with
  | ArtifactAttributes_artifact_type _ => [lit "artifact_type"]
  | ArtifactAttributes_bbox _ => [lit "bbox"]
  | ArtifactAttributes_subtype _ => [lit "subtype"]
  end.

Definition FENoteAttributes_sets (c : FENoteAttributes_call) : list bytes :=
  match c with
  | FENoteAttributes_note_type _ => [lit "note_type"]
  end.

Definition MarkedRef_sets (c : MarkedRef_call) : list bytes :=
  match c with
  | MarkedRef_page _ => [lit "page"]
  | MarkedRef_stream _ => [lit "stream"]
  | MarkedRef_stream_owner _ => [lit "stream_owner"]
  | MarkedRef_marked_content_id _ => [lit "marked_content_id"]
  end.

Definition ObjectRef_sets (c : ObjectRef_call) : list bytes :=
  match c with
  | ObjectRef_page _ => [lit "page"]
  | ObjectRef_object _ => [lit "object"]
  end.

Definition StructElement_sets (c : StructElement_call) : list bytes :=
  match c with
  | StructElement_kind _ => [lit "kind"]
  | StructElement_kind_2 _ _ => [lit "kind"; lit "namespace"]
  | StructElement_custom_kind _ => [lit "kind"]
  | StructElement_parent _ => [lit "parent"]
  | StructElement_id _ => [lit "id"]
  | StructElement_refs _ => [lit "refs"]
  | StructElement_page _ => [lit "page"]
  | StructElement_child _ => [lit "children"]
  | StructElement_marked_content_child _ => [lit "children"]
  | StructElement_object_child _ => [lit "children"]
  | StructElement_children _ => [lit "children"]
  | StructElement_attributes _ => [lit "attributes"]
  | StructElement_attribute_class _ => [lit "attribute_class"]
  | StructElement_revision _ => [lit "revision"]
  | StructElement_title _ => [lit "title"]
  | StructElement_lang _ => [lit "lang"]
  | StructElement_alt _ => [lit "alt"]
  | StructElement_expanded _ => [lit "expanded"]
  | StructElement_actual_text _ => [lit "actual_text"]
  | StructElement_associated_files _ => [lit "associated_files"]
  | StructElement_namespace _ => [lit "namespace"]
  | StructElement_phonetic_alphabet _ => [lit "phonetic_alphabet"]
  | StructElement_phoneme _ => [lit "phoneme"]
  end.

Definition Namespace_sets (c : Namespace_call) : list bytes :=
  match c with
  | Namespace_ns _ => [lit "ns"]
  | Namespace_schema _ => [lit "schema"]
  | Namespace_role_map_ns _ => [lit "role_map_ns"]
  | Namespace_pdf_2_ns => [lit "ns"]
  | Namespace_pdf_1_7_ns => [lit "ns"]
  | Namespace_mathml_3_0_ns => [lit "ns"]
  end.

Definition StructTreeRoot_sets (c : StructTreeRoot_call) : list bytes :=
  match c with
  | StructTreeRoot_child _ => [lit "children"]
  | StructTreeRoot_children _ => [lit "children"]
  | StructTreeRoot_id_tree _ => [lit "id_tree"]
  | StructTreeRoot_parent_tree _ => [lit "parent_tree"]
  | StructTreeRoot_parent_tree_next_key _ => [lit "parent_tree_next_key"]
  | StructTreeRoot_role_map _ => [lit "role_map"]
  | StructTreeRoot_class_map _ => [lit "class_map"]
  | StructTreeRoot_namespaces _ => [lit "namespaces"]
  | StructTreeRoot_pronunciation_lexicon _ => [lit "pronunciation_lexicon"]
  | StructTreeRoot_associated_files _ => [lit "associated_files"]
  end.

Definition MarkInfo_sets (c : MarkInfo_call) : list bytes :=
  match c with
  | MarkInfo_marked _ => [lit "marked"]
  | MarkInfo_user_properties _ => [lit "user_properties"]
  | MarkInfo_suspects _ => [lit "suspects"]
  end.

Definition DeveloperExtension_sets (c : DeveloperExtension_call) : list bytes :=
  match c with
  | DeveloperExtension_base_version _ _ => [lit "base_version"]
  | DeveloperExtension_extension_level _ => [lit "extension_level"]
  end.

Definition ViewerPreferences_sets (c : ViewerPreferences_call) : list bytes :=
  match c with
  | ViewerPreferences_hide_toolbar _ => [lit "hide_toolbar"]
  | ViewerPreferences_hide_menubar _ => [lit "hide_menubar"]
  | ViewerPreferences_fit_window _ => [lit "fit_window"]
  | ViewerPreferences_center_window _ => [lit "center_window"]
  | ViewerPreferences_display_doc_title _ => [lit "display_doc_title"]
  | ViewerPreferences_non_full_screen_page_mode _ => [lit "non_full_screen_page_mode"]
  | ViewerPreferences_direction _ => [lit "direction"]
  end.

Definition PageLabel_sets (c : PageLabel_call) : list bytes :=
  match c with
  | PageLabel_style _ => [lit "style"]
  | PageLabel_prefix _ => [lit "prefix"]
  | PageLabel_offset _ => [lit "offset"]
  end.

Definition DocumentInfo_sets (c : DocumentInfo_call) : list bytes :=
  match c with
  | DocumentInfo_title _ => [lit "title"]
  | DocumentInfo_author _ => [lit "author"]
  | DocumentInfo_subject _ => [lit "subject"]
  | DocumentInfo_keywords _ => [lit "keywords"]
  | DocumentInfo_creator _ => [lit "creator"]
  | DocumentInfo_producer _ => [lit "producer"]
  | DocumentInfo_creation_date _ => [lit "creation_date"]
  | DocumentInfo_modified_date _ => [lit "modified_date"]
  | DocumentInfo_trapped _ => [lit "trapped"]
  end.

Definition Transition_sets (c : Transition_call) : list bytes :=
  match c with
  | Transition_style _ => [lit "style"]
  | Transition_duration _ => [lit "duration"]
  | Transition_dimension _ => [lit "dimension"]
  | Transition_direction _ => [lit "direction"]
  | Transition_angle _ => [lit "angle"]
  | Transition_scale _ => [lit "scale"]
  | Transition_opaque _ => [lit "opaque"]
  end.

Definition Names_sets (c : Names_call) : list bytes :=
  match c with
  | Names_destinations _ => [lit "destinations"]
  | Names_appearances _ => [lit "appearances"]
  | Names_javascript _ => [lit "javascript"]
  | Names_pages _ => [lit "pages"]
  | Names_templates _ => [lit "templates"]
  | Names_capture_ids _ => [lit "capture_ids"]
  | Names_capture_urls _ => [lit "capture_urls"]
  | Names_embedded_files _ => [lit "embedded_files"]
  | Names_alternate_presentations _ => [lit "alternate_presentations"]
  | Names_renditions _ => [lit "renditions"]
  end.

Definition Pages_sets (c : Pages_call) : list bytes :=
  match c with
  | Pages_parent _ => [lit "parent"]
  | Pages_kids _ => [lit "kids"]
  | Pages_count _ => [lit "count"]
  | Pages_media_box _ => [lit "media_box"]
  | Pages_resources _ => [lit "resources"]
  end.

Definition Page_sets (c : Page_call) : list bytes :=
  match c with
  | Page_parent _ => [lit "parent"]
  | Page_last_modified _ => [lit "last_modified"]
  | Page_media_box _ => [lit "media_box"]
  | Page_crop_box _ => [lit "crop_box"]
  | Page_bleed_box _ => [lit "bleed_box"]
  | Page_trim_box _ => [lit "trim_box"]
  | Page_art_box _ => [lit "art_box"]
  | Page_resources _ => [lit "resources"]
  | Page_contents _ => [lit "contents"]
  | Page_contents_array _ => [lit "contents"]
  | Page_rotate _ => [lit "rotate"]
  | Page_group _ => [lit "group"]
  | Page_thumbnail _ => [lit "thumbnail"]
  | Page_duration _ => [lit "duration"]
  | Page_transition _ => [lit "transition"]
  | Page_annotations _ => [lit "annotations"]
  | Page_struct_parents _ => [lit "struct_parents"]
  | Page_tab_order _ => [lit "tab_order"]
  | Page_user_unit _ => [lit "user_unit"]
  | Page_additional_actions _ => [lit "additional_actions"]
  | Page_metadata _ => [lit "metadata"]
  | Page_associated_files _ => [lit "associated_files"]
  end.

Definition Outline_sets (c : Outline_call) : list bytes :=
  match c with
  | Outline_first _ => [lit "first"]
  | Outline_last _ => [lit "last"]
  | Outline_count _ => [lit "count"]
  end.

Definition OutlineItem_sets (c : OutlineItem_call) : list bytes :=
  match c with
  | OutlineItem_title _ => [lit "title"]
  | OutlineItem_parent _ => [lit "parent"]
  | OutlineItem_prev _ => [lit "prev"]
  | OutlineItem_next _ => [lit "next"]
  | OutlineItem_first _ => [lit "first"]
  | OutlineItem_last _ => [lit "last"]
  | OutlineItem_count _ => [lit "count"]
  | OutlineItem_dest _ => [lit "dest"]
  | OutlineItem_dest_name _ => [lit "dest"]
  | OutlineItem_color_rgb _ _ _ => [lit "color_rgb"]
  | OutlineItem_flags _ => [lit "flags"]
  end.

Definition Catalog_sets (c : Catalog_call) : list bytes :=
  match c with
  | Catalog_pages _ => [lit "pages"]
  | Catalog_page_layout _ => [lit "page_layout"]
  | Catalog_page_labels _ => [lit "page_labels"]
  | Catalog_page_mode _ => [lit "page_mode"]
  | Catalog_viewer_preferences _ => [lit "viewer_preferences"]
  | Catalog_names _ => [lit "names"]
  | Catalog_destinations _ => [lit "destinations"]
  | Catalog_outlines _ => [lit "outlines"]
  | Catalog_struct_tree_root _ => [lit "struct_tree_root"]
  | Catalog_mark_info _ => [lit "mark_info"]
  | Catalog_lang _ => [lit "lang"]
  | Catalog_version _ _ => [lit "version"]
  | Catalog_additional_actions _ => [lit "additional_actions"]
  | Catalog_form _ => [lit "form"]
  | Catalog_metadata _ => [lit "metadata"]
  | Catalog_extensions _ => [lit "extensions"]
  | Catalog_separation_info _ => [lit "separation_info"]
  | Catalog_output_intents _ => [lit "output_intents"]
  | Catalog_associated_files _ => [lit "associated_files"]
  end.

Definition DecodeParms_sets (c : DecodeParms_call) : list bytes :=
  match c with
  | DecodeParms_predictor _ => [lit "predictor"]
  | DecodeParms_colors _ => [lit "colors"]
  | DecodeParms_bits_per_component _ => [lit "bits_per_component"]
  | DecodeParms_columns _ => [lit "columns"]
  | DecodeParms_early_change _ => [lit "early_change"]
  | DecodeParms_k _ => [lit "k"]
  | DecodeParms_end_of_line _ => [lit "end_of_line"]
  | DecodeParms_encoded_byte_align _ => [lit "encoded_byte_align"]
  | DecodeParms_rows _ => [lit "rows"]
  | DecodeParms_end_of_block _ => [lit "end_of_block"]
  | DecodeParms_black_is_1 _ => [lit "black_is_1"]
  | DecodeParms_damaged_rows_before_error _ => [lit "damaged_rows_before_error"]
  | DecodeParms_jbig2_globals _ => [lit "jbig2_globals"]
  | DecodeParms_color_transform _ => [lit "color_transform"]
  | DecodeParms_crypt_type => [lit "crypt_type"]
  | DecodeParms_name _ => [lit "name"]
  end.

Definition FileSpec_sets (c : FileSpec_call) : list bytes :=
  match c with
  | FileSpec_file_system _ => [lit "file_system"]
  | FileSpec_path _ => [lit "path"]
  | FileSpec_unic_file _ => [lit "unic_file"]
  | FileSpec_volatile _ => [lit "volatile"]
  | FileSpec_description _ => [lit "description"]
  | FileSpec_embedded_file _ => [lit "embedded_file"]
  | FileSpec_embedded_file_with_unicode _ => [lit "embedded_file"]
  | FileSpec_association_kind _ => [lit "association_kind"]
  end.

Definition EmbeddingParams_sets (c : EmbeddingParams_call) : list bytes :=
  match c with
  | EmbeddingParams_size _ => [lit "size"]
  | EmbeddingParams_creation_date _ => [lit "creation_date"]
  | EmbeddingParams_modification_date _ => [lit "modification_date"]
  | EmbeddingParams_checksum _ => [lit "checksum"]
  end.

Definition EmbeddedFile_sets (c : EmbeddedFile_call) : list bytes :=
  match c with
  | EmbeddedFile_subtype _ => [lit "subtype"]
  | EmbeddedFile_params _ => [lit "params"]
  end.

Definition Encoding_sets (c : Encoding_call) : list bytes :=
  match c with
  | Encoding_base_encoding _ => [lit "base_encoding"]
  | Encoding_differences _ => [lit "differences"]
  end.

Definition Type1Font_sets (c : Type1Font_call) : list bytes :=
  match c with
  | Type1Font_name _ => [lit "name"]
  | Type1Font_base_font _ => [lit "base_font"]
  | Type1Font_first_char _ => [lit "first_char"]
  | Type1Font_last_char _ => [lit "last_char"]
  | Type1Font_widths _ => [lit "widths"]
  | Type1Font_font_descriptor _ => [lit "font_descriptor"]
  | Type1Font_encoding_predefined _ => [lit "encoding"]
  | Type1Font_encoding_custom _ => [lit "encoding"]
  | Type1Font_to_unicode _ => [lit "to_unicode"]
  end.

Definition Type3Font_sets (c : Type3Font_call) : list bytes :=
  match c with
  | Type3Font_name _ => [lit "name"]
  | Type3Font_bbox _ => [lit "bbox"]
  | Type3Font_matrix _ => [lit "matrix"]
  | Type3Font_char_procs _ => [lit "char_procs"]
  | Type3Font_encoding_predefined _ => [lit "encoding"]
  | Type3Font_encoding_custom _ => [lit "encoding"]
  | Type3Font_first_char _ => [lit "first_char"]
  | Type3Font_last_char _ => [lit "last_char"]
  | Type3Font_widths _ => [lit "widths"]
  | Type3Font_font_descriptor _ => [lit "font_descriptor"]
  | Type3Font_resources _ => [lit "resources"]
  | Type3Font_to_unicode _ => [lit "to_unicode"]
  end.

Definition Type0Font_sets (c : Type0Font_call) : list bytes :=
  match c with
  | Type0Font_base_font _ => [lit "base_font"]
  | Type0Font_encoding_predefined _ => [lit "encoding"]
  | Type0Font_encoding_cmap _ => [lit "encoding"]
  | Type0Font_descendant_font _ => [lit "descendant_font"]
  | Type0Font_to_unicode _ => [lit "to_unicode"]
  end.

Definition CidFont_sets (c : CidFont_call) : list bytes :=
  match c with
  | CidFont_subtype _ => [lit "subtype"]
  | CidFont_base_font _ => [lit "base_font"]
  | CidFont_system_info _ => [lit "system_info"]
  | CidFont_font_descriptor _ => [lit "font_descriptor"]
  | CidFont_default_width _ => [lit "default_width"]
  | CidFont_widths _ => [lit "widths"]
  | CidFont_cid_to_gid_map_predefined _ => [lit "cid_to_gid_map"]
  | CidFont_cid_to_gid_map_stream _ => [lit "cid_to_gid_map"]
  end.

Definition Cmap_sets (c : Cmap_call) : list bytes :=
  match c with
  | Cmap_name _ => [lit "name"]
  | Cmap_system_info _ => [lit "system_info"]
  | Cmap_writing_mode _ => [lit "writing_mode"]
  | Cmap_use_cmap_stream _ => [lit "use_cmap"]
  | Cmap_use_cmap_predefined _ => [lit "use_cmap"]
  end.

Definition SignatureFieldLock_sets (c : SignatureFieldLock_call) : list bytes :=
  match c with
  | SignatureFieldLock_action _ => [lit "action"]
  | SignatureFieldLock_fields _ => [lit "fields"]
  | SignatureFieldLock_access_permissions _ => [lit "access_permissions"]
  end.

Definition SignatureModificationDetectionPrevention_sets (c : SignatureModificationDetectionPrevention_call) : list bytes :=
  match c with
  | SignatureModificationDetectionPrevention_signature_type _ => [lit "signature_type"]
  end.

Definition SignatureTimeStamp_sets (c : SignatureTimeStamp_call) : list bytes :=
  match c with
  | SignatureTimeStamp_url _ => [lit "url"]
  | SignatureTimeStamp_required _ => [lit "required"]
  end.

Definition CertificateSeedValue_sets (c : CertificateSeedValue_call) : list bytes :=
  match c with
  | CertificateSeedValue_constraint_flags _ => [lit "constraint_flags"]
  | CertificateSeedValue_subject _ => [lit "subject"]
  | CertificateSeedValue_signature_policy_oid _ => [lit "signature_policy_oid"]
  | CertificateSeedValue_signature_policy_hash_value _ => [lit "signature_policy_hash_value"]
  | CertificateSeedValue_signature_policy_hash_algorithm _ => [lit "signature_policy_hash_algorithm"]
  | CertificateSeedValue_signature_policy_commitment_type _ => [lit "signature_policy_hash_algorithm"]
  | CertificateSeedValue_subject_dn _ => [lit "subject_dn"]
  | CertificateSeedValue_key_usage _ => [lit "key_usage"]
  | CertificateSeedValue_issuer _ => [lit "issuer"]
  | CertificateSeedValue_oid _ => [lit "oid"]
  | CertificateSeedValue_url _ => [lit "url"]
  | CertificateSeedValue_url_type _ => [lit "url_type"]
  end.

Definition SignatureSeedValue_sets (c : SignatureSeedValue_call) : list bytes :=
  match c with
  | SignatureSeedValue_constraint_flags _ => [lit "constraint_flags"]
  | SignatureSeedValue_filter _ => [lit "filter"]
  | SignatureSeedValue_sub_filter _ => [lit "sub_filter"]
  | SignatureSeedValue_digest_method _ => [lit "digest_method"]
  | SignatureSeedValue_version _ => [lit "version"]
  | SignatureSeedValue_certificate _ => [lit "certificate"]
  | SignatureSeedValue_reasons _ => [lit "reasons"]
  | SignatureSeedValue_modification_detection_prevention _ => [lit "modification_detection_prevention"]
  | SignatureSeedValue_timestamp _ => [lit "timestamp"]
  | SignatureSeedValue_legal_attestation _ => [lit "legal_attestation"]
  | SignatureSeedValue_add_rev_info _ => [lit "add_rev_info"]
  | SignatureSeedValue_lock_document _ => [lit "lock_document"]
  | SignatureSeedValue_appearance_filter _ => [lit "lock_document"]
  end.

Definition Field_sets (c : Field_call) : list bytes :=
  match c with
  | Field_field_type _ => [lit "field_type"]
  | Field_parent _ => [lit "parent"]
  | Field_children _ => [lit "children"]
  | Field_partial_name _ => [lit "partial_name"]
  | Field_alternate_name _ => [lit "alternate_name"]
  | Field_mapping_name _ => [lit "mapping_name"]
  | Field_field_flags _ => [lit "field_flags"]
  | Field_additional_actions _ => [lit "additional_actions"]
  | Field_into_annotation _ => []
  | Field_button_options _ => [lit "options"]
  | Field_checkbox_value _ => [lit "value"]
  | Field_checkbox_default_value _ => [lit "default_value"]
  | Field_radio_value _ => [lit "value"]
  | Field_radio_default_value _ => [lit "default_value"]
  | Field_text_max_len _ => [lit "text_max_len"]
  | Field_text_value _ => [lit "value"]
  | Field_text_default_value _ => [lit "default_value"]
  | Field_vartext_default_appearance _ => [lit "vartext_default_appearance"]
  | Field_vartext_quadding _ => [lit "vartext_quadding"]
  | Field_vartext_default_style _ => [lit "vartext_default_style"]
  | Field_vartext_rich_value _ => [lit "vartext_rich_value"]
  | Field_choice_options _ => [lit "options"]
  | Field_choice_top_index _ => [lit "choice_top_index"]
  | Field_choice_indices _ => [lit "choice_indices"]
  | Field_choice_value _ => [lit "value"]
  | Field_choice_values _ => [lit "value"]
  | Field_choice_default_value _ => [lit "default_value"]
  | Field_choice_default_values _ => [lit "default_value"]
  | Field_signature_field_lock _ => [lit "signature_field_lock"]
  | Field_signature_seed_value _ => [lit "signature_seed_value"]
  end.

(** Without the method whose calls belong to another writer. *)
Definition Field_own (c : Field_call) : bool := match c with Field_into_annotation _ => false | _ => true end.

Definition Form_sets (c : Form_call) : list bytes :=
  match c with
  | Form_fields _ => [lit "fields"]
  | Form_sig_flags _ => [lit "sig_flags"]
  | Form_calculation_order _ => [lit "calculation_order"]
  | Form_default_resources _ => [lit "default_resources"]
  | Form_default_appearance _ => [lit "default_appearance"]
  | Form_quadding _ => [lit "quadding"]
  end.

Definition Artifact_sets (c : Artifact_call) : list bytes :=
  match c with
  | Artifact_kind _ => [lit "kind"]
  | Artifact_subtype _ => [lit "subtype"]
  | Artifact_bounding_box _ => [lit "bounding_box"]
  | Artifact_attached _ => [lit "attached"]
  end.

Definition PropertyList_sets (c : PropertyList_call) : list bytes :=
  match c with
  | PropertyList_identify _ => [lit "identify"]
  | PropertyList_actual_text _ => [lit "actual_text"]
  | PropertyList_artifact _ => []
  end.

(** Without the method whose calls belong to another writer. *)
Definition PropertyList_own (c : PropertyList_call) : bool := match c with PropertyList_artifact _ => false | _ => true end.

Definition Resources_sets (c : Resources_call) : list bytes :=
  match c with
  | Resources_x_objects _ => [lit "x_objects"]
  | Resources_fonts _ => [lit "fonts"]
  | Resources_color_spaces _ => [lit "color_spaces"]
  | Resources_patterns _ => [lit "patterns"]
  | Resources_shadings _ => [lit "shadings"]
  | Resources_ext_g_states _ => [lit "ext_g_states"]
  | Resources_proc_sets _ => [lit "proc_sets"]
  | Resources_proc_sets_all => [lit "proc_sets"]
  | Resources_properties _ => [lit "properties"]
  end.

Definition SoftMask_sets (c : SoftMask_call) : list bytes :=
  match c with
  | SoftMask_subtype _ => [lit "subtype"]
  | SoftMask_group _ => [lit "group"]
  | SoftMask_backdrop _ => [lit "backdrop"]
  | SoftMask_transfer_function _ => [lit "transfer_function"]
  end.

Definition ExtGraphicsState_sets (c : ExtGraphicsState_call) : list bytes :=
  match c with
  | ExtGraphicsState_line_width _ => [lit "line_width"]
  | ExtGraphicsState_line_cap _ => [lit "line_cap"]
  | ExtGraphicsState_line_join _ => [lit "line_join"]
  | ExtGraphicsState_miter_limit _ => [lit "miter_limit"]
  | ExtGraphicsState_dash_pattern _ _ => [lit "dash_pattern"]
  | ExtGraphicsState_rendering_intent _ => [lit "rendering_intent"]
  | ExtGraphicsState_overprint _ => [lit "overprint"]
  | ExtGraphicsState_overprint_fill _ => [lit "overprint_fill"]
  | ExtGraphicsState_overprint_mode _ => [lit "overprint_mode"]
  | ExtGraphicsState_font _ _ => [lit "font"]
  | ExtGraphicsState_black_generation _ => [lit "black_generation"]
  | ExtGraphicsState_black_generation_default => [lit "black_generation_default"]
  | ExtGraphicsState_undercolor_removal _ => [lit "undercolor_removal"]
  | ExtGraphicsState_undercolor_removal_default => [lit "undercolor_removal_default"]
  | ExtGraphicsState_transfer _ => [lit "transfer"]
  | ExtGraphicsState_transfer_default => [lit "transfer_default"]
  | ExtGraphicsState_halftone _ => [lit "halftone"]
  | ExtGraphicsState_halftone_default => [lit "halftone"]
  | ExtGraphicsState_flatness _ => [lit "flatness"]
  | ExtGraphicsState_smoothness _ => [lit "smoothness"]
  | ExtGraphicsState_stroke_adjustment _ => [lit "stroke_adjustment"]
  | ExtGraphicsState_blend_mode _ => [lit "blend_mode"]
  | ExtGraphicsState_soft_mask _ => [lit "soft_mask"]
  | ExtGraphicsState_soft_mask_name _ => [lit "soft_mask"]
  | ExtGraphicsState_stroking_alpha _ => [lit "stroking_alpha"]
  | ExtGraphicsState_non_stroking_alpha _ => [lit "non_stroking_alpha"]
  | ExtGraphicsState_alpha_source _ => [lit "alpha_source"]
  | ExtGraphicsState_text_knockout _ => [lit "text_knockout"]
  end.

Definition TilingPattern_sets (c : TilingPattern_call) : list bytes :=
  match c with
  | TilingPattern_paint_type _ => [lit "paint_type"]
  | TilingPattern_tiling_type _ => [lit "tiling_type"]
  | TilingPattern_bbox _ => [lit "bbox"]
  | TilingPattern_x_step _ => [lit "x_step"]
  | TilingPattern_y_step _ => [lit "y_step"]
  | TilingPattern_resources _ => [lit "resources"]
  | TilingPattern_matrix _ => [lit "matrix"]
  end.

Definition FunctionShading_sets (c : FunctionShading_call) : list bytes :=
  match c with
  | FunctionShading_shading_type _ => [lit "shading_type"]
  | FunctionShading_color_space _ => [lit "color_space"]
  | FunctionShading_background _ => [lit "background"]
  | FunctionShading_bbox _ => [lit "bbox"]
  | FunctionShading_anti_alias _ => [lit "anti_alias"]
  | FunctionShading_domain _ => [lit "domain"]
  | FunctionShading_matrix _ => [lit "matrix"]
  | FunctionShading_function _ => [lit "function"]
  | FunctionShading_coords _ => [lit "coords"]
  | FunctionShading_extend _ => [lit "extend"]
  end.

Definition ShadingPattern_sets (c : ShadingPattern_call) : list bytes :=
  match c with
  | ShadingPattern_function_shading _ => [lit "shading"]
  | ShadingPattern_shading_ref _ => [lit "shading"]
  | ShadingPattern_matrix _ => [lit "matrix"]
  | ShadingPattern_ext_graphics _ => [lit "ext_graphics"]
  end.

Definition StreamShading_sets (c : StreamShading_call) : list bytes :=
  match c with
  | StreamShading_shading_type _ => [lit "shading_type"]
  | StreamShading_color_space _ => [lit "color_space"]
  | StreamShading_background _ => [lit "background"]
  | StreamShading_bbox _ => [lit "bbox"]
  | StreamShading_anti_alias _ => [lit "anti_alias"]
  | StreamShading_function _ => [lit "function"]
  | StreamShading_bits_per_coordinate _ => [lit "bits_per_coordinate"]
  | StreamShading_bits_per_component _ => [lit "bits_per_component"]
  | StreamShading_bits_per_flag _ => [lit "bits_per_flag"]
  | StreamShading_decode _ => [lit "decode"]
  | StreamShading_vertices_per_row _ => [lit "vertices_per_row"]
  end.

Definition SeparationInfo_sets (c : SeparationInfo_call) : list bytes :=
  match c with
  | SeparationInfo_pages _ => [lit "pages"]
  | SeparationInfo_device_colorant _ => [lit "device_colorant"]
  | SeparationInfo_device_colorant_str _ => [lit "device_colorant"]
  | SeparationInfo_color_space _ => [lit "color_space"]
  end.

Definition OutputIntent_sets (c : OutputIntent_call) : list bytes :=
  match c with
  | OutputIntent_subtype _ => [lit "subtype"]
  | OutputIntent_output_condition _ => [lit "output_condition"]
  | OutputIntent_output_condition_identifier _ => [lit "output_condition_identifier"]
  | OutputIntent_registry_name _ => [lit "registry_name"]
  | OutputIntent_info _ => [lit "info"]
  | OutputIntent_dest_output_profile _ => [lit "dest_output_profile"]
  end.

Definition Group_sets (c : Group_call) : list bytes :=
  match c with
  | Group_transparency => [lit "transparency"]
  | Group_color_space _ => [lit "color_space"]
  | Group_isolated _ => [lit "isolated"]
  | Group_knockout _ => [lit "knockout"]
  end.

Definition Reference_sets (c : Reference_call) : list bytes :=
  match c with
  | Reference_file_spec _ => [lit "file_spec"]
  | Reference_page_number _ => [lit "page"]
  | Reference_page_label _ => [lit "page"]
  | Reference_id _ => [lit "id"]
  end.

Definition ImageXObject_sets (c : ImageXObject_call) : list bytes :=
  match c with
  | ImageXObject_width _ => [lit "width"]
  | ImageXObject_height _ => [lit "height"]
  | ImageXObject_color_space _ => [lit "color_space"]
  | ImageXObject_color_space_name _ => [lit "color_space"]
  | ImageXObject_bits_per_component _ => [lit "bits_per_component"]
  | ImageXObject_intent _ => [lit "intent"]
  | ImageXObject_image_mask _ => [lit "image_mask"]
  | ImageXObject_color_mask _ => [lit "mask"]
  | ImageXObject_stencil_mask _ => [lit "mask"]
  | ImageXObject_decode _ => [lit "decode"]
  | ImageXObject_interpolate _ => [lit "interpolate"]
  | ImageXObject_alternates _ => [lit "alternates"]
  | ImageXObject_s_mask _ => [lit "s_mask"]
  | ImageXObject_s_mask_in_data _ => [lit "s_mask_in_data"]
  | ImageXObject_struct_parent _ => [lit "struct_parent"]
  | ImageXObject_matte _ => [lit "matte"]
  | ImageXObject_metadata _ => [lit "metadata"]
  | ImageXObject_associated_files _ => [lit "associated_files"]
  end.

Definition FormXObject_sets (c : FormXObject_call) : list bytes :=
  match c with
  | FormXObject_bbox _ => [lit "bbox"]
  | FormXObject_matrix _ => [lit "matrix"]
  | FormXObject_resources _ => [lit "resources"]
  | FormXObject_group _ => [lit "group"]
  | FormXObject_struct_parent _ => [lit "struct_parent"]
  | FormXObject_struct_parents _ => [lit "struct_parents"]
  | FormXObject_reference _ => [lit "reference"]
  | FormXObject_metadata _ => [lit "metadata"]
  | FormXObject_last_modified _ => [lit "last_modified"]
  | FormXObject_associated_files _ => [lit "associated_files"]
  end.

Definition SampledFunction_sets (c : SampledFunction_call) : list bytes :=
  match c with
  | SampledFunction_size _ => [lit "size"]
  | SampledFunction_bits_per_sample _ => [lit "bits_per_sample"]
  | SampledFunction_order _ => [lit "order"]
  | SampledFunction_encode _ => [lit "encode"]
  | SampledFunction_decode _ => [lit "decode"]
  | SampledFunction_domain _ => [lit "domain"]
  | SampledFunction_range _ => [lit "range"]
  end.

Definition ExponentialFunction_sets (c : ExponentialFunction_call) : list bytes :=
  match c with
  | ExponentialFunction_c0 _ => [lit "c0"]
  | ExponentialFunction_c1 _ => [lit "c1"]
  | ExponentialFunction_n _ => [lit "n"]
  | ExponentialFunction_domain _ => [lit "domain"]
  | ExponentialFunction_range _ => [lit "range"]
  end.

Definition StitchingFunction_sets (c : StitchingFunction_call) : list bytes :=
  match c with
  | StitchingFunction_functions _ => [lit "functions"]
  | StitchingFunction_bounds _ => [lit "bounds"]
  | StitchingFunction_encode _ => [lit "encode"]
  | StitchingFunction_domain _ => [lit "domain"]
  | StitchingFunction_range _ => [lit "range"]
  end.

Definition PostScriptFunction_sets (c : PostScriptFunction_call) : list bytes :=
  match c with
  | PostScriptFunction_domain _ => [lit "domain"]
  | PostScriptFunction_range _ => [lit "range"]
  end.
(** Maps whose keys are arguments: setting a name twice is setting something twice. *)
Definition RoleMap_sets (c : RoleMap_call) : list bytes :=
  match c with
  | RoleMap_insert name _ => [name]
  | RoleMap_pair name _ => [name]
  end.

Definition ClassMap_sets (c : ClassMap_call) : list bytes :=
  match c with
  | ClassMap_single name _ => [name]
  | ClassMap_multiple name _ => [name]
  end.

Definition NamespaceRoleMap_sets (c : NamespaceRoleMap_call) : list bytes :=
  match c with
  | NamespaceRoleMap_to_pdf_1_7 name _ => [name]
  | NamespaceRoleMap_to_namespace name _ _ => [name]
  | NamespaceRoleMap_to_pdf_2_0 name _ _ => [name]
  end.
