[
 {
  "id": "T1",
  "definition": "ModelContent.v: call_op",
  "edit": "swapped arguments: MoveTo writes y x",
  "claim_broken": "C35/C49: an operation reads back with the operands the call was given",
  "theorems_refuted": [],
  "first_proof_failures": [],
  "theorems_tightened": [
   "C35_*",
   "C49_*: statements now go through iso_operation, an independent table from the call to operator and operands, instead of the model's own call_op"
  ],
  "note": "before the tightening all theorems still proved"
 },
 {
  "id": "T2",
  "definition": "ModelContent.v: call_op",
  "edit": "wrong operator: LineTo written as m",
  "claim_broken": "C35",
  "theorems_refuted": [],
  "first_proof_failures": [],
  "theorems_tightened": [
   "C35_*, C49_*: iso_operation"
  ],
  "note": "before the tightening all theorems still proved"
 },
 {
  "id": "T3",
  "definition": "ModelPs.v: ps_operator",
  "edit": "names of ge and gt swapped",
  "claim_broken": "C39: the program read back is the program given",
  "theorems_refuted": [],
  "first_proof_failures": [],
  "theorems_tightened": [
   "C39_*: the reader uses the independent table ps_word of SpecPs"
  ],
  "note": "before the tightening all theorems still proved"
 },
 {
  "id": "T4",
  "definition": "ModelPdf.v: filter_name",
  "edit": "names of two filters swapped",
  "claim_broken": "C27: a filtered stream can be decoded by its Filter entry",
  "theorems_refuted": [],
  "first_proof_failures": [],
  "theorems_tightened": [
   "C27_*: iso_filter, an independent table"
  ],
  "note": "before the tightening all theorems still proved"
 },
 {
  "id": "T5",
  "definition": "ModelColor.v: cs_obj",
  "edit": "DeviceN with zero colorants accepted / Indexed hival bound changed (more calls return None)",
  "claim_broken": "C40/C44: the writer panics exactly for the inputs its documentation forbids",
  "theorems_refuted": [],
  "first_proof_failures": [],
  "theorems_tightened": [
   "C40_color_space_panics (new), C44_icc_n, C57_*: cs_allowed and icc_allowed of SpecColor replace the model's own cs_obj <> None"
  ],
  "note": "before the tightening, the hypotheses moved along with the edit"
 },
 {
  "id": "T6",
  "definition": "ModelColor.v: cs_srgb, cs_adobe_rgb, cs_display_p3, cs_pro_photo, cs_ntsc, cs_pal",
  "edit": "one digit of a white point, gamma or matrix entry of a predefined colour space changed (found by the automatic mutation run)",
  "claim_broken": "C40: the predefined colour spaces carry the published primaries",
  "theorems_refuted": [],
  "first_proof_failures": [],
  "theorems_tightened": [
   "C40_predefined_numbers",
   "C40_white_errors"
  ],
  "note": "before the tightening all theorems still proved: the numbers were quantified over as whatever the model wrote; the two theorems now compare them with an independent table in SpecColor.v"
 },
 {
  "id": "T7",
  "definition": "ModelChunk.v: chunk_new",
  "edit": "Settings::default() with pretty: false (found by the automatic mutation run)",
  "claim_broken": "C12: Chunk::new, Pdf::new and Content::new write the pretty layout",
  "theorems_refuted": [],
  "first_proof_failures": [],
  "theorems_tightened": [
   "C12_default_is_pretty",
   "C12_settings_choose_layout",
   "C12_content_default_is_pretty",
   "C12_content_settings"
  ],
  "note": "all earlier theorems quantify over the setting, so none noticed the default"
 },
 {
  "id": "T8",
  "definition": "ModelObject.v: lang_len",
  "edit": "a language code without region counts 1 instead of 2 towards the string limit (found by the automatic mutation run)",
  "claim_broken": "C20: the string limit is the maximum of the lengths that count",
  "theorems_refuted": [],
  "first_proof_failures": [],
  "theorems_tightened": [
   "C20_string_limit_of_text",
   "C20_chunk_string_limit",
   "C20_chunk_string_bound",
   "C22_text_exact",
   "C22_text_lang_exact"
  ],
  "note": "the string limit was proved exact for Str and ASCII text only; now for every string, with independent sizes"
 },
 {
  "id": "T9",
  "definition": "ModelFloat.v: ryu_fin (scientific branch), f32_of_i32 (exponent of zero); ModelObject.v: utf8 (bytes after the first)",
  "edit": "survivors of the automatic mutation run",
  "claim_broken": "none: equivalent mutants (ryu is only called between 1e-6 and 1e12, where it never writes an exponent; a zero has any exponent; only the first byte and the number of the bytes of a non-ASCII character matter, since such text is written in UTF-16)",
  "theorems_refuted": [],
  "first_proof_failures": [],
  "theorems_tightened": [],
  "note": "no theorem can fail"
 },
 {
  "id": "T10",
  "definition": "ModelObject.v: is_alnum",
  "edit": "letters start at 'b' (98) instead of 'a' (97) (found by the automatic mutation run)",
  "claim_broken": "C09: exactly the codes of two ASCII letters or digits are accepted",
  "theorems_refuted": [],
  "first_proof_failures": [],
  "theorems_tightened": [
   "C09_language_identifiers"
  ],
  "note": "the statement used the model's own test; it now has the ranges written out"
 },
 {
  "id": "T11",
  "definition": "ModelFloat.v: f32_as_i32 (NaN); ModelRenumber.v: skip_comment (order of the two line ends)",
  "edit": "survivors of the automatic mutation run",
  "claim_broken": "none: equivalent mutants (the converted value of NaN is compared with NaN, which never succeeds; a set has no order)",
  "theorems_refuted": [],
  "first_proof_failures": [],
  "theorems_tightened": [],
  "note": "no theorem can fail"
 },
 {
  "id": "T12",
  "definition": "ModelTwDoc.v: the clause of Page_media_box",
  "edit": "method Page_media_box writes no entry, in the model and consistently in the writer-level specification (SpecTwDoc.v), so that only end-to-end theorems can notice",
  "claim_broken": "C75",
  "theorems_refuted": [],
  "first_proof_failures": [
   "PropSizes.C75_case"
  ],
  "theorems_tightened": [
   "all end-to-end theorems C58, C64-C76: their hypotheses now speak of the methods that the program calls (called, stream_called, ...) instead of the entries that the specification lists for them"
  ],
  "note": "survived as a theorem (only the example failed): the hypothesis was about entries and became unsatisfiable with the same edit; after tightening, PropSizes.page_own fails"
 },
 {
  "id": "T13",
  "definition": "ModelTwDoc.v: the clause of Page_crop_box",
  "edit": "method Page_crop_box writes no entry, in the model and consistently in the writer-level specification (SpecTwDoc.v), so that only end-to-end theorems can notice",
  "claim_broken": "C75 page sizes",
  "theorems_refuted": [],
  "first_proof_failures": [
   "PropSizes.page_own"
  ],
  "theorems_tightened": []
 },
 {
  "id": "T14",
  "definition": "ModelTwDoc.v: the clause of Page_contents_array",
  "edit": "method Page_contents_array writes no entry, in the model and consistently in the writer-level specification (SpecTwDoc.v), so that only end-to-end theorems can notice",
  "claim_broken": "C58 page contents",
  "theorems_refuted": [],
  "first_proof_failures": [
   "PropPages.contents_entry"
  ],
  "theorems_tightened": []
 },
 {
  "id": "T15",
  "definition": "ModelTwDoc.v: the clause of Pages_kids",
  "edit": "method Pages_kids writes no entry, in the model and consistently in the writer-level specification (SpecTwDoc.v), so that only end-to-end theorems can notice",
  "claim_broken": "C57 the document examples, C58",
  "theorems_refuted": [],
  "first_proof_failures": [
   "Conform.example_hello",
   "PropDoc.C57_case"
  ],
  "theorems_tightened": []
 },
 {
  "id": "T16",
  "definition": "ModelTwDoc.v: the clause of Catalog_page_labels",
  "edit": "method Catalog_page_labels writes no entry, in the model and consistently in the writer-level specification (SpecTwDoc.v), so that only end-to-end theorems can notice",
  "claim_broken": "C67 page labels",
  "theorems_refuted": [],
  "first_proof_failures": [
   "PropNav.C67_page_labels"
  ],
  "theorems_tightened": []
 },
 {
  "id": "T17",
  "definition": "ModelTwDoc.v: the clause of Catalog_metadata",
  "edit": "method Catalog_metadata writes no entry, in the model and consistently in the writer-level specification (SpecTwDoc.v), so that only end-to-end theorems can notice",
  "claim_broken": "C74 metadata",
  "theorems_refuted": [],
  "first_proof_failures": [
   "PropInfo.metadata_found"
  ],
  "theorems_tightened": []
 },
 {
  "id": "T18",
  "definition": "ModelTwDoc.v: the clause of Names_destinations",
  "edit": "method Names_destinations writes no entry, in the model and consistently in the writer-level specification (SpecTwDoc.v), so that only end-to-end theorems can notice",
  "claim_broken": "destinations by name",
  "theorems_refuted": [],
  "first_proof_failures": [],
  "theorems_tightened": [
   "C80_names (new)"
  ],
  "note": "survived: no end-to-end theorem read destinations by name; C80 was added for it"
 },
 {
  "id": "T19",
  "definition": "ModelTwDoc.v: the clause of OutlineItem_title",
  "edit": "method OutlineItem_title writes no entry, in the model and consistently in the writer-level specification (SpecTwDoc.v), so that only end-to-end theorems can notice",
  "claim_broken": "C65/C66 bookmarks",
  "theorems_refuted": [],
  "first_proof_failures": [
   "PropNav.bookmarks_found"
  ],
  "theorems_tightened": []
 },
 {
  "id": "T20",
  "definition": "ModelTwFiles.v: the clause of FileSpec_embedded_file",
  "edit": "method FileSpec_embedded_file writes no entry, in the model and consistently in the writer-level specification (SpecTwFiles.v), so that only end-to-end theorems can notice",
  "claim_broken": "C68 attachments",
  "theorems_refuted": [],
  "first_proof_failures": [
   "PropNav.attachment_found"
  ],
  "theorems_tightened": []
 },
 {
  "id": "T21",
  "definition": "ModelTwAnnot.v: the clause of Annotation_appearance_state",
  "edit": "method Annotation_appearance_state writes no entry, in the model and consistently in the writer-level specification (SpecTwAnnot.v), so that only end-to-end theorems can notice",
  "claim_broken": "C73 appearances",
  "theorems_refuted": [],
  "first_proof_failures": [
   "PropAppear.appearance_found"
  ],
  "theorems_tightened": []
 },
 {
  "id": "T22",
  "definition": "ModelTwForms.v: the clause of Field_text_value",
  "edit": "method Field_text_value writes no entry, in the model and consistently in the writer-level specification (SpecTwForms.v), so that only end-to-end theorems can notice",
  "claim_broken": "C72 form fields",
  "theorems_refuted": [],
  "first_proof_failures": [
   "PropForm.attributes_of"
  ],
  "theorems_tightened": []
 },
 {
  "id": "T23",
  "definition": "ModelTwForms.v: the clause of Form_fields",
  "edit": "method Form_fields writes no entry, in the model and consistently in the writer-level specification (SpecTwForms.v), so that only end-to-end theorems can notice",
  "claim_broken": "C72 form fields",
  "theorems_refuted": [],
  "first_proof_failures": [
   "PropForm.C72_form"
  ],
  "theorems_tightened": []
 },
 {
  "id": "T24",
  "definition": "ModelTwAttr.v: the clause of StructElement_alt",
  "edit": "method StructElement_alt writes no entry, in the model and consistently in the writer-level specification (SpecTwAttr.v), so that only end-to-end theorems can notice",
  "claim_broken": "C69 tags",
  "theorems_refuted": [],
  "first_proof_failures": [
   "PropTagged.tag_found"
  ],
  "theorems_tightened": []
 },
 {
  "id": "T25",
  "definition": "ModelTwAttr.v: the clause of MarkedRef_marked_content_id",
  "edit": "method MarkedRef_marked_content_id writes no entry, in the model and consistently in the writer-level specification (SpecTwAttr.v), so that only end-to-end theorems can notice",
  "claim_broken": "C69 tags",
  "theorems_refuted": [],
  "first_proof_failures": [
   "PropTagged.tag_found"
  ],
  "theorems_tightened": []
 },
 {
  "id": "T26",
  "definition": "ModelTwGraphics.v: the clause of Resources_x_objects",
  "edit": "method Resources_x_objects writes no entry, in the model and consistently in the writer-level specification (SpecTwGraphics.v), so that only end-to-end theorems can notice",
  "claim_broken": "C71 painting",
  "theorems_refuted": [],
  "first_proof_failures": [
   "PropPaint.named_found"
  ],
  "theorems_tightened": []
 },
 {
  "id": "T27",
  "definition": "ModelTwXObj.v: the clause of FormXObject_resources",
  "edit": "method FormXObject_resources writes no entry, in the model and consistently in the writer-level specification (SpecTwXObj.v), so that only end-to-end theorems can notice",
  "claim_broken": "C71 painting",
  "theorems_refuted": [],
  "first_proof_failures": [
   "PropPaint.drawings_found"
  ],
  "theorems_tightened": []
 },
 {
  "id": "T28",
  "definition": "ModelTwDoc.v: the clause of DocumentInfo_title",
  "edit": "method DocumentInfo_title writes no entry, in the model and consistently in the writer-level specification (SpecTwDoc.v), so that only end-to-end theorems can notice",
  "claim_broken": "C74 document information",
  "theorems_refuted": [],
  "first_proof_failures": [
   "PropInfo.info_found"
  ],
  "theorems_tightened": []
 },
 {
  "id": "T29",
  "definition": "ModelTwFonts.v: the clause of Type1Font_widths",
  "edit": "method Type1Font_widths writes no entry, in the model and consistently in the writer-level specification (SpecTwFonts.v), so that only end-to-end theorems can notice",
  "claim_broken": "C76 glyph widths",
  "theorems_refuted": [],
  "first_proof_failures": [
   "PropGlyphs.font_found"
  ],
  "theorems_tightened": []
 },
 {
  "id": "T30",
  "definition": "ModelTwFonts.v: the clause of CidFont_widths",
  "edit": "method CidFont_widths writes no entry, in the model and consistently in the writer-level specification (SpecTwFonts.v), so that only end-to-end theorems can notice",
  "claim_broken": "C76 glyph widths",
  "theorems_refuted": [],
  "first_proof_failures": [
   "PropGlyphs.font_found"
  ],
  "theorems_tightened": []
 },
 {
  "id": "T31",
  "definition": "ModelTwAnnot.v: the clause of Appearance_normal",
  "edit": "method Appearance_normal writes no entry, in the model and consistently in the writer-level specification (SpecTwAnnot.v), so that only end-to-end theorems can notice",
  "claim_broken": "C73 appearances",
  "theorems_refuted": [],
  "first_proof_failures": [
   "PropAppear.appearance_found"
  ],
  "theorems_tightened": []
 },
 {
  "id": "T32",
  "definition": "ModelOverflow.v: as_usize; ModelObject.v: is_regular_character; ModelPs.v: ps_typed",
  "edit": "survivors of a second automatic mutation run (247 random one-token edits of the model: constants, comparisons, booleans, operators): 2^64 to 3^64 in as_usize; x20 to x0a in is_regular_character; <=? to <? in ps_typed",
  "claim_broken": "C63: what a release build does with an array length that is over-reported (as_usize). The other two are no bugs: x0a stands twice in the list, and the space is excluded by the range test already; ps_typed was used by no theorem and is removed",
  "theorems_refuted": [],
  "first_proof_failures": [],
  "theorems_tightened": [
   "C63_release_array_over_reported (new): the writer of a release build reports exactly the length modulo 2^64"
  ],
  "note": "before the tightening all theorems still proved; the other 244 mutants made at least one proof fail"
 },
 {
  "id": "T33",
  "definition": "Type0Font_entries",
  "edit": "the key of `encoding_cmap` and its writer-level specification changed consistently to a wrong key",
  "claim_broken": "C64: the font of a page is found and its text extracted",
  "theorems_refuted": [],
  "first_proof_failures": [
   "PropExtract.v font_found"
  ],
  "theorems_tightened": [],
  "note": "The writer-level theorems still prove because their specification was changed, too; the end-to-end theorem, which names the keys of the standard itself, fails. Only the first failures are listed: the files after them were not reached."
 },
 {
  "id": "T34",
  "definition": "StitchingFunction_entries, AdditionalActions_entries, Type3Font_entries",
  "edit": "the keys of `bounds`, `page_open`, `char_procs` and their writer-level specifications changed consistently to wrong keys",
  "claim_broken": "the end-to-end theorems of functions, actions and Type 3 fonts",
  "theorems_refuted": [],
  "first_proof_failures": [
   "PropGlyphs.v font_found",
   "PropFunctions.v function_found"
  ],
  "theorems_tightened": [],
  "note": "The writer-level theorems still prove because their specification was changed, too; the end-to-end theorem, which names the keys of the standard itself, fails. Only the first failures are listed: the files after them were not reached."
 },
 {
  "id": "T35",
  "definition": "SampledFunction_entries, Field_entries, CidFont_entries, Catalog_entries",
  "edit": "the keys of `encode`, `vartext_quadding`, the vertical metrics and `lang` changed consistently in model and writer-level specification",
  "claim_broken": "the end-to-end theorems of functions, forms and document properties",
  "theorems_refuted": [],
  "first_proof_failures": [
   "PropForm.v attributes_of",
   "PropInfo.v C74_properties",
   "PropFunctions.v function_found"
  ],
  "theorems_tightened": [],
  "note": "The writer-level theorems still prove because their specification was changed, too; the end-to-end theorem, which names the keys of the standard itself, fails. Only the first failures are listed: the files after them were not reached."
 },
 {
  "id": "T36",
  "definition": "AdditionalActions_entries",
  "edit": "the key of `page_open` changed consistently in model and writer-level specification",
  "claim_broken": "the event that triggers an action is the one asked for",
  "theorems_refuted": [],
  "first_proof_failures": [
   "PropActions.v event_key"
  ],
  "theorems_tightened": [],
  "note": "The writer-level theorems still prove because their specification was changed, too; the end-to-end theorem, which names the keys of the standard itself, fails. Only the first failures are listed: the files after them were not reached."
 },
 {
  "id": "T37",
  "definition": "Action_entries, Type3Font_entries",
  "edit": "the keys of `is_map` and `resources` changed consistently in model and writer-level specification",
  "claim_broken": "the action, and the Type 3 font, are read back",
  "theorems_refuted": [],
  "first_proof_failures": [
   "PropActions.v action_found",
   "PropType3.v type3_found"
  ],
  "theorems_tightened": [],
  "note": "The writer-level theorems still prove because their specification was changed, too; the end-to-end theorem, which names the keys of the standard itself, fails. Only the first failures are listed: the files after them were not reached."
 },
 {
  "id": "T38",
  "definition": "Transition_entries (and seven further setters in the batch)",
  "edit": "the key of `dimension` changed consistently in model and writer-level specification; with it those of `alternates`, `class_map`, `quad_points`, `choice_top_index`, `last`, `x_step`, `properties`",
  "claim_broken": "the transition is read back",
  "theorems_refuted": [],
  "first_proof_failures": [
   "PropPresent.v transition_found"
  ],
  "theorems_tightened": [],
  "note": "The writer-level theorems still prove because their specification was changed, too; the end-to-end theorem, which names the keys of the standard itself, fails. Only the first failures are listed: the files after them were not reached."
 },
 {
  "id": "T39",
  "definition": "ViewerPreferences_entries (and five further setters in the batch)",
  "edit": "the key of `direction` changed consistently in model and writer-level specification; with it those of `matte`, `attribute_class`, `border_style`, `backdrop`, `parent`",
  "claim_broken": "the viewer preferences are read back",
  "theorems_refuted": [],
  "first_proof_failures": [
   "PropPresent.v preferences_found"
  ],
  "theorems_tightened": [],
  "note": "The writer-level theorems still prove because their specification was changed, too; the end-to-end theorem, which names the keys of the standard itself, fails. Only the first failures are listed: the files after them were not reached."
 }
]