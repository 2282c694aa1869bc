{
 "claims": [
  {
   "property": "C01",
   "status": "proved",
   "theorems": [
    "C01_integer_round_trip"
   ],
   "note": ""
  },
  {
   "property": "C02",
   "status": "proved",
   "theorems": [
    "C02_real_round_trip",
    "C02_read_back_unique",
    "C02_all_bit_patterns"
   ],
   "note": "ryu and core::fmt are modelled by their documented result (shortest decimal that rounds to the value), see DESIGN.md"
  },
  {
   "property": "C03",
   "status": "proved",
   "theorems": [
    "C03_integral_exact",
    "C03_other_values_are_reals",
    "C03_two_pow_31_refuted"
   ],
   "note": "exact for all integral values with |v| < 2^31; C03_two_pow_31_refuted: 2^31 is written as 2147483647"
  },
  {
   "property": "C04",
   "status": "proved",
   "theorems": [
    "C04_number_iff_finite",
    "C04_nonfinite_refuted"
   ],
   "note": "an equivalence: a number token iff the value is finite; C04_nonfinite_refuted has the witnesses"
  },
  {
   "property": "C05",
   "status": "proved",
   "theorems": [
    "C05_byte_string_round_trip"
   ],
   "note": ""
  },
  {
   "property": "C06",
   "status": "proved",
   "theorems": [
    "C06_printable",
    "C06_printable_any_string",
    "C06_names_regular"
   ],
   "note": ""
  },
  {
   "property": "C07",
   "status": "proved",
   "theorems": [
    "C07_name_round_trip"
   ],
   "note": ""
  },
  {
   "property": "C08",
   "status": "proved",
   "theorems": [
    "C08_text_round_trip"
   ],
   "note": ""
  },
  {
   "property": "C09",
   "status": "proved",
   "theorems": [
    "C09_language_text_round_trip",
    "C09_language_identifiers",
    "C09_embedded_escape_refuted",
    "C09_exactly"
   ],
   "note": "with U+001B inside a text the segments cannot be recovered (C09_embedded_escape_refuted); otherwise exact"
  },
  {
   "property": "C10",
   "status": "proved",
   "theorems": [
    "C10_date_round_trip"
   ],
   "note": ""
  },
  {
   "property": "C11",
   "status": "proved",
   "theorems": [
    "C11_tree_round_trip",
    "C11_tree_alone",
    "C11_nonempty_names_suffice"
   ],
   "note": ""
  },
  {
   "property": "C12",
   "status": "proved",
   "theorems": [
    "C12_settings_choose_layout",
    "C12_default_is_pretty",
    "C12_content_settings",
    "C12_content_default_is_pretty",
    "C12_same_tokens"
   ],
   "note": ""
  },
  {
   "property": "C13",
   "status": "proved",
   "theorems": [
    "C13_exactly",
    "C13_empty_name_refuted",
    "C13_array_refuted",
    "C13_otherwise_separated"
   ],
   "note": "fails for an empty name before a regular character in compact mode (refuted theorems), holds in every other case (C13_otherwise_separated)"
  },
  {
   "property": "C14",
   "status": "proved",
   "theorems": [
    "C14_indentation_bounded",
    "C14_no_wrap"
   ],
   "note": ""
  },
  {
   "property": "C15",
   "status": "proved",
   "theorems": [
    "C15_stream_layout",
    "C15_stream_reads_back"
   ],
   "note": ""
  },
  {
   "property": "C16",
   "status": "proved",
   "theorems": [
    "C16_stream_panics_iff_oversized",
    "C16_history_panics_iff_oversized"
   ],
   "note": ""
  },
  {
   "property": "C17",
   "status": "proved",
   "theorems": [
    "C17_refs_in_order",
    "C17_offsets_ascend",
    "C17_offsets_point_at_objects"
   ],
   "note": ""
  },
  {
   "property": "C18",
   "status": "proved",
   "theorems": [
    "C18_extend_concatenates",
    "C18_extend_limits",
    "C18_limits_ok",
    "C18_extend_associative",
    "C18_empty_neutral"
   ],
   "note": ""
  },
  {
   "property": "C19",
   "status": "proved",
   "theorems": [
    "C19_chunk_reads_back"
   ],
   "note": ""
  },
  {
   "property": "C20",
   "status": "proved",
   "theorems": [
    "C20_tree_limits_exact",
    "C20_string_limit_exact",
    "C20_chunk_limits_exact",
    "C20_chunk_limits_bound",
    "C20_string_limit_of_text",
    "C20_chunk_string_limit",
    "C20_chunk_string_bound"
   ],
   "note": ""
  },
  {
   "property": "C21",
   "status": "proved",
   "theorems": [
    "C21_merge_commutative",
    "C21_merge_associative",
    "C21_merge_idempotent",
    "C21_merge_neutral",
    "C21_merge_closed",
    "C21_merge_is_least_upper_bound",
    "C21_order_antisymmetric",
    "C21_merge_order_irrelevant"
   ],
   "note": ""
  },
  {
   "property": "C22",
   "status": "proved",
   "theorems": [
    "C22_plain_not_under_reported",
    "C22_text_under_reported_refuted",
    "C22_date_not_registered_refuted",
    "C22_int_min_refuted",
    "C22_text_exact",
    "C22_text_lang_exact"
   ],
   "note": "the under-reporting cases are refuted theorems, for text with an exact criterion (C22_text_exact, C22_text_lang_exact); everything else is not under-reported"
  },
  {
   "property": "C23",
   "status": "proved",
   "theorems": [
    "C23_large_file_refuted",
    "C23_table_entries",
    "C23_every_object_is_found",
    "C23_entry_size"
   ],
   "note": "for files of at most 10^10 bytes; C23_large_file_refuted: with an object beyond that the file cannot be opened"
  },
  {
   "property": "C24",
   "status": "proved",
   "theorems": [
    "C24_free_list",
    "C24_free_ids_meaning"
   ],
   "note": ""
  },
  {
   "property": "C25",
   "status": "proved",
   "theorems": [
    "C25_finish_panics_iff_duplicate",
    "C25_duplicate_meaning",
    "C25_stream_panics_iff_duplicate",
    "C25_plain_stream_panics_iff_duplicate"
   ],
   "note": ""
  },
  {
   "property": "C26",
   "status": "proved",
   "theorems": [
    "C26_write_order_does_not_matter",
    "C26_write_order_stream"
   ],
   "note": ""
  },
  {
   "property": "C27",
   "status": "proved",
   "theorems": [
    "C27_stream_entries",
    "C27_own_entry",
    "C27_every_object_is_found"
   ],
   "note": ""
  },
  {
   "property": "C28",
   "status": "proved",
   "theorems": [
    "C28_free_list_iff",
    "C28_width",
    "C28_dense_ids",
    "C28_free_list_refuted"
   ],
   "note": "an equivalence (C28_free_list_iff) plus the width that is chosen; C28_free_list_refuted is a file with a wrong free list"
  },
  {
   "property": "C29",
   "status": "proved",
   "theorems": [
    "C29_finish",
    "C29_stream",
    "C29_size_refuted"
   ],
   "note": "for ids below i32::MAX; C29_size_refuted: at id i32::MAX the size overflows"
  },
  {
   "property": "C30",
   "status": "proved",
   "theorems": [
    "C30_set_version_is_local",
    "C30_set_binary_marker_is_local",
    "C30_edits_only_change_the_header",
    "C30_edits_commute"
   ],
   "note": ""
  },
  {
   "property": "C31",
   "status": "proved",
   "theorems": [
    "C31_in_place",
    "C31_documents",
    "C31_panicking_closure",
    "C31_closure_returns",
    "C31_renumber_is_rewriting",
    "C31_renumber_pure",
    "C31_renumber_mixed_settings"
   ],
   "note": "source and target with one setting (C31_renumber_mixed_settings for different ones); in place: C31_in_place, C31_documents; closures that may panic: C31_panicking_closure, C31_closure_returns"
  },
  {
   "property": "C32",
   "status": "proved",
   "theorems": [
    "C32_calls_in_order",
    "C32_answers_in_place"
   ],
   "note": ""
  },
  {
   "property": "C33",
   "status": "proved",
   "theorems": [
    "C33_identity",
    "C33_composition",
    "C33_inverse",
    "C33_into_is_extend",
    "C33_parts"
   ],
   "note": ""
  },
  {
   "property": "C34",
   "status": "proved",
   "theorems": [
    "C34_scanner_total",
    "C34_loop_total",
    "C34_renumber_never_panics"
   ],
   "note": ""
  },
  {
   "property": "C35",
   "status": "proved",
   "theorems": [
    "C35_operations_round_trip",
    "C35_operations_append",
    "C35_nonempty_names_suffice",
    "C35_empty_name_refuted",
    "C35_exactly"
   ],
   "note": "the side condition is only about empty names in compact mode and non-finite numbers; C35_empty_name_refuted shows that it is needed"
  },
  {
   "property": "C36",
   "status": "proved",
   "theorems": [
    "C36_finish_strips_one_newline",
    "C36_finish_keeps_limits",
    "C36_finish_keeps_operations",
    "C36_split_over_streams",
    "C36_split_needs_white_space",
    "C36_in_place"
   ],
   "note": "also for content split over several streams"
  },
  {
   "property": "C37",
   "status": "proved",
   "theorems": [
    "C37_depth_is_tracked",
    "C37_depth_is_unique",
    "C37_other_operations",
    "C37_balanced_is_zero",
    "C37_tokens_match_calls"
   ],
   "note": ""
  },
  {
   "property": "C38",
   "status": "proved",
   "theorems": [
    "C38_mappings",
    "C38_header",
    "C38_code_space",
    "C38_injection_refuted"
   ],
   "note": "for names without line breaks; C38_injection_refuted shows that it is needed"
  },
  {
   "property": "C39",
   "status": "proved",
   "theorems": [
    "C39_round_trip",
    "C39_types",
    "C39_large_real_refuted",
    "C39_encoding_is_faithful",
    "C39_types_exactly",
    "C39_bound"
   ],
   "note": "for reals below 10^12 in absolute value; C39_large_real_refuted beyond"
  },
  {
   "property": "C40",
   "status": "proved",
   "theorems": [
    "C40_color_space_reads_back",
    "C40_separation_order",
    "C40_device_n_order",
    "C40_color_space_panics",
    "C40_device_n_shape",
    "C40_separation_shape",
    "C40_second_tint_refuted",
    "C40_colorants_refuted",
    "C40_icc_components",
    "C40_icc_profile_reads_back",
    "C40_predefined_spaces",
    "C40_predefined_numbers",
    "C40_white_errors"
   ],
   "note": "C40_second_tint_refuted and C40_colorants_refuted: two misuses that are not rejected"
  },
  {
   "property": "C41",
   "status": "proved",
   "theorems": [
    "C41_numbers",
    "C41_colors",
    "C41_styles",
    "C41_constructors",
    "C41_colors_shared"
   ],
   "note": ""
  },
  {
   "property": "C42",
   "status": "proved",
   "theorems": [
    "C42_role2_names",
    "C42_role2_names_distinct",
    "C42_buffer_is_tight",
    "C42_compatible_iff_same_name",
    "C42_role_1_7",
    "C42_options",
    "C42_into_pdf_2_0",
    "C42_replaced_in_2_0",
    "C42_into_pdf_2_0_refuted",
    "C42_round_trip_from_1_7",
    "C42_round_trip_from_2_0",
    "C42_role_types",
    "C42_role2_types"
   ],
   "note": "C42_into_pdf_2_0_refuted: RP is mapped to WP; C42_into_pdf_2_0 characterises the mapping for all roles"
  },
  {
   "property": "C43",
   "status": "proved",
   "theorems": [
    "C43_names",
    "C43_numbers_and_strings",
    "C43_flags",
    "C43_distinct",
    "C43_owners_distinct"
   ],
   "note": ""
  },
  {
   "property": "C44",
   "status": "proved",
   "theorems": [
    "C44_content",
    "C44_icc_n",
    "C44_viewer_preferences",
    "C44_page",
    "C44_outline",
    "C44_catalog",
    "C44_decode_parms",
    "C44_stream",
    "C44_embedded_file",
    "C44_cmap",
    "C44_tiling_pattern",
    "C44_function_shading",
    "C44_shading_pattern",
    "C44_stream_shading",
    "C44_separation_info",
    "C44_group",
    "C44_image_x_object",
    "C44_form_x_object",
    "C44_sampled_function",
    "C44_post_script_function",
    "C44_metadata"
   ],
   "note": ""
  },
  {
   "property": "C45",
   "status": "proved",
   "theorems": [
    "C45_bump",
    "C45_new",
    "C45_last_id_refuted"
   ],
   "note": "for ids below i32::MAX; C45_last_id_refuted: next() overflows at i32::MAX"
  },
  {
   "property": "C46",
   "status": "proved",
   "theorems": [
    "C46_name_tree",
    "C46_number_tree",
    "C46_name_limits_refuted"
   ],
   "note": "C46_name_limits_refuted: the limits of a name tree are written as names, not strings"
  },
  {
   "property": "C47",
   "status": "proved",
   "theorems": [
    "C47_differences",
    "C47_widths"
   ],
   "note": ""
  },
  {
   "property": "C48",
   "status": "proved",
   "theorems": [
    "C48_additional_actions",
    "C48_page_close_refuted",
    "C48_page_close_collides",
    "C48_distinct_keys",
    "C48_one_key"
   ],
   "note": "C48_page_close_refuted: annot_page_close writes the key of another trigger; C48_distinct_keys covers all other pairs"
  },
  {
   "property": "C49",
   "status": "proved",
   "theorems": [
    "C49_operations_are_well_formed",
    "C49_streams_are_well_formed"
   ],
   "note": ""
  },
  {
   "property": "C50",
   "status": "proved",
   "theorems": [
    "C50_developer_extension",
    "C50_viewer_preferences",
    "C50_page_label",
    "C50_document_info",
    "C50_transition",
    "C50_names",
    "C50_pages",
    "C50_page",
    "C50_outline",
    "C50_outline_item",
    "C50_catalog",
    "C50_opaque_refuted"
   ],
   "note": "C50_opaque_refuted: Transition::opaque writes a number under /F"
  },
  {
   "property": "C51",
   "status": "proved",
   "theorems": [
    "C51_destination",
    "C51_fields",
    "C51_media_permissions",
    "C51_media_play_params",
    "C51_media_clip",
    "C51_rendition",
    "C51_action",
    "C51_appearance",
    "C51_icon_fit",
    "C51_appearance_characteristics",
    "C51_border_style",
    "C51_annotation",
    "C51_cymk_refuted"
   ],
   "note": "C51_cymk_refuted: the order of the components"
  },
  {
   "property": "C52",
   "status": "proved",
   "theorems": [
    "C52_choice_options",
    "C52_signature_field_lock",
    "C52_signature_modification_detection_prevention",
    "C52_signature_time_stamp",
    "C52_certificate_seed_value",
    "C52_signature_seed_value",
    "C52_field",
    "C52_form",
    "C52_appearance_filter_refuted",
    "C52_commitment_type_refuted"
   ],
   "note": "two refuted keys, everything else holds"
  },
  {
   "property": "C53",
   "status": "proved",
   "theorems": [
    "C53_font_descriptor",
    "C53_encoding",
    "C53_type1_font",
    "C53_type3_font",
    "C53_type0_font",
    "C53_cid_font",
    "C53_cmap"
   ],
   "note": ""
  },
  {
   "property": "C54",
   "status": "proved",
   "theorems": [
    "C54_user_property",
    "C54_layout_attributes",
    "C54_list_attributes",
    "C54_field_attributes",
    "C54_table_attributes",
    "C54_artifact_attributes",
    "C54_f_e_note_attributes",
    "C54_attributes",
    "C54_marked_ref",
    "C54_object_ref",
    "C54_struct_children",
    "C54_struct_element",
    "C54_role_map",
    "C54_class_map",
    "C54_namespace_role_map",
    "C54_namespace",
    "C54_struct_tree_root",
    "C54_mark_info"
   ],
   "note": ""
  },
  {
   "property": "C55",
   "status": "proved",
   "theorems": [
    "C55_artifact",
    "C55_property_list",
    "C55_resources",
    "C55_soft_mask",
    "C55_ext_graphics_state",
    "C55_tiling_pattern",
    "C55_function_shading",
    "C55_shading_pattern",
    "C55_stream_shading",
    "C55_separation_info",
    "C55_output_intent",
    "C55_group",
    "C55_font_refuted"
   ],
   "note": "C55_font_refuted: ExtGraphicsState::font writes a name"
  },
  {
   "property": "C56",
   "status": "proved",
   "theorems": [
    "C56_decode_parms",
    "C56_stream",
    "C56_file_spec",
    "C56_embedding_params",
    "C56_embedded_file",
    "C56_reference",
    "C56_image_x_object",
    "C56_form_x_object",
    "C56_sampled_function",
    "C56_exponential_function",
    "C56_stitching_function",
    "C56_post_script_function",
    "C56_metadata"
   ],
   "note": ""
  },
  {
   "property": "C57",
   "status": "proved",
   "theorems": [
    "C57_typed_objects_are_found",
    "C57_typed_objects_are_found_stream",
    "C57_root",
    "C57_root_stream",
    "C57_panics"
   ],
   "note": ""
  },
  {
   "property": "C58",
   "status": "proved",
   "theorems": [
    "C58_pages_read_back",
    "C58_pages_read_back_stream"
   ],
   "note": "the reader joins the streams of a Contents array with white space (PDF 2.0)"
  },
  {
   "property": "C59",
   "status": "proved",
   "theorems": [
    "C59_assembled_documents",
    "C59_assembled_documents_stream",
    "C59_root",
    "C59_root_stream"
   ],
   "note": "closures that panic: C79; consistency is only asked of the ids that occur, within one renumbering"
  },
  {
   "property": "C60",
   "status": "proved",
   "theorems": [
    "C60_documented_closure",
    "C60_consecutive",
    "C60_documented_renumbering",
    "C60_closure_ok"
   ],
   "note": "the hypothesis alloc + number of distinct ids <= i32::MAX excludes the panic of Ref::bump; the hash map is modelled by an association list"
  },
  {
   "property": "C61",
   "status": "proved",
   "theorems": [
    "C61_calls_write_a_tree",
    "C61_tree_is_unique",
    "C61_every_tree_is_written",
    "C61_shorthands",
    "C61_calls_write_a_stream",
    "C61_array_len",
    "C61_dict_len",
    "C61_chunk_object",
    "C61_chunk_stream",
    "C61_abandoned_refuted"
   ],
   "note": ""
  },
  {
   "property": "C62",
   "status": "proved",
   "theorems": [
    "C62_assembled_pages_read_back",
    "C62_assembled_pages_read_back_stream"
   ],
   "note": ""
  },
  {
   "property": "C63",
   "status": "proved",
   "theorems": [
    "C63_debug_panics_iff",
    "C63_release",
    "C63_builds_agree",
    "C63_small_objects",
    "C63_streams",
    "C63_histories",
    "C63_files",
    "C63_max_id_debug",
    "C63_release_long_array_refuted",
    "C63_release_array_over_reported",
    "C63_release_deep_string_refuted"
   ],
   "note": ""
  },
  {
   "property": "C64",
   "status": "proved",
   "theorems": [
    "C64_text_is_extracted",
    "C64_text_is_extracted_stream"
   ],
   "note": "the reader takes the font from Tf only and does not enter form XObjects (stated in SpecExtract.v); see C102 for text in forms"
  },
  {
   "property": "C65",
   "status": "proved",
   "theorems": [
    "C65_attachments"
   ],
   "note": ""
  },
  {
   "property": "C66",
   "status": "proved",
   "theorems": [
    "C66_bookmarks"
   ],
   "note": ""
  },
  {
   "property": "C67",
   "status": "proved",
   "theorems": [
    "C67_page_labels"
   ],
   "note": ""
  },
  {
   "property": "C68",
   "status": "proved",
   "theorems": [
    "C68_links"
   ],
   "note": ""
  },
  {
   "property": "C69",
   "status": "proved",
   "theorems": [
    "C69_structure",
    "C69_parents",
    "C69_pdf_2_ns_refuted"
   ],
   "note": ""
  },
  {
   "property": "C70",
   "status": "proved",
   "theorems": [
    "C70_marked_text",
    "C70_tagged_text"
   ],
   "note": ""
  },
  {
   "property": "C71",
   "status": "proved",
   "theorems": [
    "C71_painting"
   ],
   "note": ""
  },
  {
   "property": "C72",
   "status": "proved",
   "theorems": [
    "C72_form"
   ],
   "note": ""
  },
  {
   "property": "C73",
   "status": "proved",
   "theorems": [
    "C73_annotations"
   ],
   "note": ""
  },
  {
   "property": "C74",
   "status": "proved",
   "theorems": [
    "C74_properties"
   ],
   "note": ""
  },
  {
   "property": "C75",
   "status": "proved",
   "theorems": [
    "C75_geometry"
   ],
   "note": ""
  },
  {
   "property": "C76",
   "status": "proved",
   "theorems": [
    "C76_fonts"
   ],
   "note": ""
  },
  {
   "property": "C77",
   "status": "proved",
   "theorems": [
    "C77_same_ids",
    "C77_same_file",
    "C77_typed_objects_are_found",
    "C77_pages_read_back",
    "C77_text_is_extracted"
   ],
   "note": ""
  },
  {
   "property": "C78",
   "status": "proved",
   "theorems": [
    "C78_pdf_is_a_chunk",
    "C78_renumber",
    "C78_copy_is_a_call",
    "C78_copied_objects_are_found",
    "C78_extend",
    "C78_extended_documents",
    "C78_extended_documents_stream",
    "C78_copied_documents",
    "C78_copied_documents_stream"
   ],
   "note": ""
  },
  {
   "property": "C79",
   "status": "proved",
   "theorems": [
    "C79_object",
    "C79_stream",
    "C79_stream_too_long",
    "C79_every_point",
    "C79_one_tree",
    "C79_renumber_without_panic",
    "C79_every_run",
    "C79_finish",
    "C79_document",
    "C79_document_stream",
    "C79_damaged_refuted"
   ],
   "note": ""
  },
  {
   "property": "C80",
   "status": "proved",
   "theorems": [
    "C80_names",
    "C80_destinations",
    "C80_element_ids",
    "C80_find_parent",
    "C80_find_label"
   ],
   "note": ""
  },
  {
   "property": "C81",
   "status": "proved",
   "theorems": [
    "C81_operation",
    "C81_every_point",
    "C81_content",
    "C81_every_run",
    "C81_reads_back",
    "C81_open_refuted"
   ],
   "note": ""
  },
  {
   "property": "C82",
   "status": "proved",
   "theorems": [
    "C82_functions"
   ],
   "note": ""
  },
  {
   "property": "C83",
   "status": "proved",
   "theorems": [
    "C83_colors"
   ],
   "note": ""
  },
  {
   "property": "C84",
   "status": "proved",
   "theorems": [
    "C84_document",
    "C84_pages",
    "C84_annotations",
    "C84_fields"
   ],
   "note": ""
  },
  {
   "property": "C85",
   "status": "proved",
   "theorems": [
    "C85_document",
    "C85_pages",
    "C85_separation_refuted"
   ],
   "note": "the last sentence is C85_separation_refuted: the typed methods of pages never write it; Transition::opaque is left out (C50 refuted its key)"
  },
  {
   "property": "C86",
   "status": "proved",
   "theorems": [
    "C86_objects"
   ],
   "note": ""
  },
  {
   "property": "C87",
   "status": "proved",
   "theorems": [
    "C87_elements",
    "C87_tree"
   ],
   "note": ""
  },
  {
   "property": "C88",
   "status": "proved",
   "theorems": [
    "C88_annotations"
   ],
   "note": ""
  },
  {
   "property": "C89",
   "status": "proved",
   "theorems": [
    "C89_fields"
   ],
   "note": ""
  },
  {
   "property": "C90",
   "status": "proved",
   "theorems": [
    "C90_fonts"
   ],
   "note": ""
  },
  {
   "property": "C91",
   "status": "proved",
   "theorems": [
    "C91_outline",
    "C91_pages"
   ],
   "note": ""
  },
  {
   "property": "C92",
   "status": "proved",
   "theorems": [
    "C92_content"
   ],
   "note": ""
  },
  {
   "property": "C93",
   "status": "proved",
   "theorems": [
    "C93_read_through",
    "C93_read_through_stream",
    "C93_marker_refuted",
    "C93_usual_markers"
   ],
   "note": "hypotheses: every object readable in the sense of C13 (body_readable), file of at most 10^10 bytes for a table; the last sentence is C93_marker_refuted"
  },
  {
   "property": "C94",
   "status": "proved",
   "theorems": [
    "C94_states"
   ],
   "note": ""
  },
  {
   "property": "C95",
   "status": "proved",
   "theorems": [
    "C95_glyph_drawings"
   ],
   "note": ""
  },
  {
   "property": "C96",
   "status": "proved",
   "theorems": [
    "C96_document",
    "C96_document_stream",
    "C96_object_leaves_one",
    "C96_stream_leaves_one",
    "C96_others_object",
    "C96_others_stream",
    "C96_renumber_never_panics",
    "C96_renumber_pure"
   ],
   "note": ""
  },
  {
   "property": "C97",
   "status": "proved",
   "theorems": [
    "C97_runs",
    "C97_document",
    "C97_document_stream",
    "C97_header",
    "C97_plain_calls",
    "C97_header_lost_refuted"
   ],
   "note": ""
  },
  {
   "property": "C98",
   "status": "proved",
   "theorems": [
    "C98_same_file",
    "C98_without_chunks",
    "C98_file_determines_document",
    "C98_stream_file_determines_document",
    "C98_table_or_stream",
    "C98_any_layout"
   ],
   "note": ""
  },
  {
   "property": "C99",
   "status": "proved",
   "theorems": [
    "C99_cut_short",
    "C99_cut_short_stream"
   ],
   "note": ""
  },
  {
   "property": "C100",
   "status": "proved",
   "theorems": [
    "C100_streams_by_keyword",
    "C100_streams_by_keyword_stream",
    "C100_streams_by_keyword_plain_stream",
    "C100_carriage_return_refuted",
    "C100_keyword_in_data_refuted",
    "C100_exactly",
    "C100_exactly_stream",
    "C100_exactly_plain_stream"
   ],
   "note": ""
  },
  {
   "property": "C101",
   "status": "proved",
   "theorems": [
    "C101_value",
    "C101_attained",
    "C101_chunk",
    "C101_renumbered",
    "C101_pdf",
    "C101_table",
    "C101_file",
    "C101_xref_stream",
    "C101_content",
    "C101_content_attained"
   ],
   "note": ""
  },
  {
   "property": "C102",
   "status": "proved",
   "theorems": [
    "C102_text_in_forms"
   ],
   "note": ""
  },
  {
   "property": "C103",
   "status": "proved",
   "theorems": [
    "C103_table",
    "C103_stream"
   ],
   "note": ""
  },
  {
   "property": "C104",
   "status": "proved",
   "theorems": [
    "C104_objects_within_limits",
    "C104_contents_within_limits",
    "C104_merged_limits",
    "C104_merged_contents",
    "C104_archival_objects",
    "C104_archival_contents"
   ],
   "note": ""
  },
  {
   "property": "C105",
   "status": "proved",
   "theorems": [
    "C105_counterclockwise",
    "C105_region",
    "C105_document",
    "C105_clockwise_refuted"
   ],
   "note": ""
  },
  {
   "property": "C106",
   "status": "proved",
   "theorems": [
    "C106_writers",
    "C106_leaked_writers",
    "C106_unwinding",
    "C106_chunks",
    "C106_leaked_chunks",
    "C106_finish",
    "C106_documents",
    "C106_leaked_documents",
    "C106_read_at_once",
    "C106_contents"
   ],
   "note": ""
  },
  {
   "property": "C107",
   "status": "proved",
   "theorems": [
    "C107_chunks",
    "C107_leaked_chunks",
    "C107_extend",
    "C107_leaked_extend",
    "C107_documents",
    "C107_leaked_documents",
    "C107_limits"
   ],
   "note": ""
  },
  {
   "property": "C108",
   "status": "proved",
   "theorems": [
    "C108_MediaPermissions",
    "C108_MediaPlayParams",
    "C108_MediaClip",
    "C108_Rendition",
    "C108_Action",
    "C108_AdditionalActions",
    "C108_Appearance",
    "C108_IconFit",
    "C108_AppearanceCharacteristics",
    "C108_BorderStyle",
    "C108_Annotation",
    "C108_UserProperty",
    "C108_LayoutAttributes",
    "C108_ListAttributes",
    "C108_FieldAttributes",
    "C108_TableAttributes",
    "C108_ArtifactAttributes",
    "C108_FENoteAttributes",
    "C108_MarkedRef",
    "C108_ObjectRef",
    "C108_StructElement",
    "C108_Namespace",
    "C108_StructTreeRoot",
    "C108_MarkInfo",
    "C108_DeveloperExtension",
    "C108_ViewerPreferences",
    "C108_PageLabel",
    "C108_DocumentInfo",
    "C108_Transition",
    "C108_Names",
    "C108_Pages",
    "C108_Page",
    "C108_Outline",
    "C108_OutlineItem",
    "C108_Catalog",
    "C108_DecodeParms",
    "C108_FileSpec",
    "C108_EmbeddingParams",
    "C108_EmbeddedFile",
    "C108_Encoding",
    "C108_Type1Font",
    "C108_Type3Font",
    "C108_Type0Font",
    "C108_CidFont",
    "C108_Cmap",
    "C108_SignatureFieldLock",
    "C108_SignatureModificationDetectionPrevention",
    "C108_SignatureTimeStamp",
    "C108_CertificateSeedValue",
    "C108_SignatureSeedValue",
    "C108_Field",
    "C108_Form",
    "C108_Artifact",
    "C108_PropertyList",
    "C108_Resources",
    "C108_SoftMask",
    "C108_ExtGraphicsState",
    "C108_TilingPattern",
    "C108_FunctionShading",
    "C108_ShadingPattern",
    "C108_StreamShading",
    "C108_SeparationInfo",
    "C108_OutputIntent",
    "C108_Group",
    "C108_Reference",
    "C108_ImageXObject",
    "C108_FormXObject",
    "C108_SampledFunction",
    "C108_ExponentialFunction",
    "C108_StitchingFunction",
    "C108_PostScriptFunction",
    "C108_RoleMap",
    "C108_ClassMap",
    "C108_NamespaceRoleMap",
    "C108_read",
    "C108_SignatureSeedValue_refuted",
    "C108_CertificateSeedValue_refuted",
    "C108_AdditionalActions_refuted",
    "C108_raw_refuted"
   ],
   "note": "an equivalence per writer, with the names of SpecOnce; four pairs of methods that set different things but write one key are named there and refuted (C108_*_refuted), as is an untyped entry with a key the writer sets (C108_raw_refuted)"
  }
 ]
}