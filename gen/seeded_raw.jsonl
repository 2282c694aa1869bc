{"id": "M01", "definition": "ModelBuf.v: push_float", "edit": "tiny reals take the integer path (written as 0)", "claim": "C02", "refuted_statement": ["C02_real_round_trip"], "first_failures": ["ProofFloat2.push_float_inner"], "blocked": ["PropChunk.v", "PropCmap.v", "PropContent.v", "PropLimits.v", "PropPdf.v", "PropPdf2.v", "PropPrim.v", "PropPs.v", "PropRenum.v", "PropTree.v"], "counterexample": "refuted"}
{"id": "M02", "definition": "ModelBuf.v: push_decimal", "edit": "ryu path up to 2^103 instead of 1e12: exponents appear", "claim": "C02", "refuted_statement": ["C02_real_round_trip"], "first_failures": ["ProofFloat2.push_decimal_inner"], "blocked": ["PropChunk.v", "PropCmap.v", "PropContent.v", "PropLimits.v", "PropPdf.v", "PropPdf2.v", "PropPrim.v", "PropPs.v", "PropRenum.v", "PropTree.v"], "counterexample": null}
{"id": "M03", "definition": "ModelBuf.v: hex_digit", "edit": "wrong boundary: hex digit A..F shifted by one", "claim": "C05", "refuted_statement": ["C05_byte_string_round_trip", "C07_name_round_trip"], "first_failures": ["ProofBasic.hex_string_byte"], "blocked": ["PropChunk.v", "PropCmap.v", "PropContent.v", "PropLimits.v", "PropPdf.v", "PropPdf2.v", "PropPrim.v", "PropPs.v", "PropRenum.v", "PropTree.v"], "counterexample": "refuted"}
{"id": "M04", "definition": "ModelBuf.v: hex4", "edit": "swapped bytes (little endian UTF-16)", "claim": "C08", "refuted_statement": ["C08_text_round_trip", "C38_mappings"], "first_failures": ["ProofText.hex4_units"], "blocked": ["PropChunk.v", "PropCmap.v", "PropContent.v", "PropLimits.v", "PropPdf.v", "PropPdf2.v", "PropPrim.v", "PropPs.v", "PropRenum.v", "PropTree.v"], "counterexample": "refuted"}
{"id": "M05", "definition": "ModelBuf.v: octal3", "edit": "wrong mask in the octal escape", "claim": "C05", "refuted_statement": ["C05_byte_string_round_trip"], "first_failures": ["ProofBasic.lit_string_byte"], "blocked": ["PropChunk.v", "PropCmap.v", "PropContent.v", "PropLimits.v", "PropPdf.v", "PropPdf2.v", "PropPrim.v", "PropPs.v", "PropRenum.v", "PropTree.v"], "counterexample": "refuted"}
{"id": "M06", "definition": "ModelObject.v: is_balanced_from", "edit": "no early return: only the final depth is checked", "claim": "C05 for \"())(\" or \"a)(\": parentheses left unescaped", "refuted_statement": ["C05_byte_string_round_trip"], "first_failures": ["ProofBasic.lit_balanced"], "blocked": ["PropChunk.v", "PropCmap.v", "PropContent.v", "PropLimits.v", "PropPdf.v", "PropPdf2.v", "PropPrim.v", "PropPs.v", "PropRenum.v", "PropTree.v"], "counterexample": "refuted"}
{"id": "M07", "definition": "ModelObject.v: str_byte", "edit": "backslash not escaped", "claim": "C05", "refuted_statement": ["C05_byte_string_round_trip"], "first_failures": ["ProofBasic.lit_string_byte"], "blocked": ["PropChunk.v", "PropCmap.v", "PropContent.v", "PropLimits.v", "PropPdf.v", "PropPdf2.v", "PropPrim.v", "PropPs.v", "PropRenum.v", "PropTree.v"], "counterexample": "refuted"}
{"id": "M08", "definition": "ModelObject.v: str_byte", "edit": "carriage return written raw", "claim": "C05,C06 (raw CR is read as LF)", "refuted_statement": ["C05_byte_string_round_trip", "C06_printable"], "first_failures": ["ProofBasic.lit_string_byte"], "blocked": ["PropChunk.v", "PropCmap.v", "PropContent.v", "PropLimits.v", "PropPdf.v", "PropPdf2.v", "PropPrim.v", "PropPs.v", "PropRenum.v", "PropTree.v"], "counterexample": "refuted"}
{"id": "M09", "definition": "ModelObject.v: str_bytes", "edit": "wrong boundary of ASCII check (non-ASCII goes to the literal path, still escaped in octal)", "claim": "none of C05/C06: output differs but still decodes", "refuted_statement": [], "first_failures": ["ProofBasic.str_bytes_token"], "blocked": ["PropChunk.v", "PropCmap.v", "PropContent.v", "PropLimits.v", "PropPdf.v", "PropPdf2.v", "PropPrim.v", "PropPs.v", "PropRenum.v", "PropTree.v"], "counterexample": null}
{"id": "M10", "definition": "ModelObject.v: is_regular_character", "edit": "percent sign missing from the irregular characters", "claim": "C07", "refuted_statement": ["C07_name_round_trip", "C06_names_regular"], "first_failures": ["ProofBasic.name_byte_regular"], "blocked": ["PropChunk.v", "PropCmap.v", "PropContent.v", "PropLimits.v", "PropPdf.v", "PropPdf2.v", "PropPrim.v", "PropPs.v", "PropRenum.v", "PropTree.v"], "counterexample": "refuted"}
{"id": "M11", "definition": "ModelObject.v: name_byte", "edit": "number sign not escaped", "claim": "C07", "refuted_statement": ["C07_name_round_trip"], "first_failures": ["ProofBasic.name_decode_byte"], "blocked": ["PropChunk.v", "PropCmap.v", "PropContent.v", "PropLimits.v", "PropPdf.v", "PropPdf2.v", "PropPrim.v", "PropPs.v", "PropRenum.v", "PropTree.v"], "counterexample": "refuted"}
{"id": "M12", "definition": "ModelObject.v: name_byte", "edit": "DEL kept in names", "claim": "C06", "refuted_statement": ["C06_names_regular"], "first_failures": ["ProofPrint.name_byte_printable"], "blocked": ["PropChunk.v", "PropCmap.v", "PropContent.v", "PropLimits.v", "PropPdf.v", "PropPdf2.v", "PropPrim.v", "PropPs.v", "PropRenum.v", "PropTree.v"], "counterexample": "refuted"}
{"id": "M13", "definition": "ModelObject.v: utf16", "edit": "wrong low surrogate", "claim": "C08", "refuted_statement": ["C08_text_round_trip"], "first_failures": ["ProofText.utf16_decode_cons"], "blocked": ["PropChunk.v", "PropCmap.v", "PropContent.v", "PropLimits.v", "PropPdf.v", "PropPdf2.v", "PropPrim.v", "PropPs.v", "PropRenum.v", "PropTree.v"], "counterexample": "refuted"}
{"id": "M14", "definition": "ModelObject.v: write_text", "edit": "UTF-8 bytes written for non-ASCII text", "claim": "C08", "refuted_statement": ["C08_text_round_trip"], "first_failures": ["ProofText.write_text_inner"], "blocked": ["PropChunk.v", "PropCmap.v", "PropContent.v", "PropLimits.v", "PropPdf.v", "PropPdf2.v", "PropPrim.v", "PropPs.v", "PropRenum.v", "PropTree.v"], "counterexample": "refuted"}
{"id": "M15", "definition": "ModelObject.v: lang_code", "edit": "closing escape of the language tag dropped", "claim": "C09", "refuted_statement": ["C09_language_text_round_trip"], "first_failures": ["ProofText.lang_code_hex"], "blocked": ["PropChunk.v", "PropCmap.v", "PropContent.v", "PropLimits.v", "PropPdf.v", "PropPdf2.v", "PropPrim.v", "PropPs.v", "PropRenum.v", "PropTree.v"], "counterexample": "refuted"}
{"id": "M16", "definition": "ModelObject.v: str_to_code", "edit": "longer language codes accepted and truncated", "claim": "C09", "refuted_statement": ["C09_language_identifiers"], "first_failures": ["PropPrim.C09_language_identifiers"], "blocked": ["PropPrim.v"], "counterexample": "refuted"}
{"id": "M17", "definition": "ModelObject.v: date_apply", "edit": "wrong clamp of the hour", "claim": "C10", "refuted_statement": ["C10_date_round_trip"], "first_failures": ["ProofText.date_apply_ok"], "blocked": ["PropChunk.v", "PropCmap.v", "PropContent.v", "PropLimits.v", "PropPdf.v", "PropPdf2.v", "PropPrim.v", "PropPs.v", "PropRenum.v", "PropTree.v"], "counterexample": "refuted"}
{"id": "M18", "definition": "ModelObject.v: date_body", "edit": "apostrophe dropped from UTC offset", "claim": "C10", "refuted_statement": ["C10_date_round_trip"], "first_failures": ["ProofText.date_body_parse"], "blocked": ["PropChunk.v", "PropCmap.v", "PropContent.v", "PropLimits.v", "PropPdf.v", "PropPdf2.v", "PropPrim.v", "PropPs.v", "PropRenum.v", "PropTree.v"], "counterexample": "refuted"}
{"id": "M19", "definition": "ModelObject.v: date_body", "edit": "offset minutes lost when the hour is zero", "claim": "C10", "refuted_statement": ["C10_date_round_trip"], "first_failures": ["ProofText.date_body_parse"], "blocked": ["PropChunk.v", "PropCmap.v", "PropContent.v", "PropLimits.v", "PropPdf.v", "PropPdf2.v", "PropPrim.v", "PropPs.v", "PropRenum.v", "PropTree.v"], "counterexample": "refuted"}
{"id": "M20", "definition": "ModelObject.v: write_rect", "edit": "swapped field in the rectangle", "claim": "C11", "refuted_statement": ["C11_tree_round_trip"], "first_failures": ["ProofObj.write_prim_inner"], "blocked": ["PropChunk.v", "PropCmap.v", "PropContent.v", "PropLimits.v", "PropPdf.v", "PropPdf2.v", "PropPrim.v", "PropPs.v", "PropRenum.v", "PropTree.v"], "counterexample": "refuted"}
{"id": "M21", "definition": "ModelObject.v: starts_with_delimiter", "edit": "PRef counted as starting with a delimiter", "claim": "C11", "refuted_statement": ["C11_tree_round_trip"], "first_failures": ["ProofObj.starts_begins"], "blocked": ["PropChunk.v", "PropCmap.v", "PropContent.v", "PropLimits.v", "PropPdf.v", "PropPdf2.v", "PropPrim.v", "PropPs.v", "PropRenum.v", "PropTree.v"], "counterexample": "refuted"}
{"id": "M22", "definition": "ModelObject.v: obj_primitive", "edit": "negated padding test", "claim": "C11", "refuted_statement": ["C11_tree_round_trip"], "first_failures": ["ProofObj.obj_primitive_inner"], "blocked": ["PropChunk.v", "PropCmap.v", "PropContent.v", "PropLimits.v", "PropPdf.v", "PropPdf2.v", "PropPrim.v", "PropPs.v", "PropRenum.v", "PropTree.v"], "counterexample": "refuted"}
{"id": "M23", "definition": "ModelObject.v: is_delimiter_character", "edit": "R treated as a delimiter", "claim": "C11 (1 0 R2)", "refuted_statement": ["C11_tree_round_trip"], "first_failures": ["ProofTree.regular_not_delimiter"], "blocked": ["PropChunk.v", "PropCmap.v", "PropContent.v", "PropLimits.v", "PropPdf.v", "PropPdf2.v", "PropPrim.v", "PropPs.v", "PropRenum.v", "PropTree.v"], "counterexample": "refuted"}
{"id": "M24", "definition": "ModelObject.v: dict_insert", "edit": "key written raw", "claim": "C11", "refuted_statement": ["C11_tree_round_trip", "C20_tree_limits_exact"], "first_failures": ["ProofObj.write_entries_inner"], "blocked": ["PropChunk.v", "PropCmap.v", "PropContent.v", "PropLimits.v", "PropPdf.v", "PropPdf2.v", "PropPrim.v", "PropPs.v", "PropRenum.v", "PropTree.v"], "counterexample": "refuted"}
{"id": "M25", "definition": "ModelObject.v: array_push", "edit": "off by one: no separator before the second element", "claim": "C11", "refuted_statement": ["C11_tree_round_trip"], "first_failures": ["ProofObj.write_items_inner"], "blocked": ["PropChunk.v", "PropCmap.v", "PropContent.v", "PropLimits.v", "PropPdf.v", "PropPdf2.v", "PropPrim.v", "PropPs.v", "PropRenum.v", "PropTree.v"], "counterexample": "refuted"}
{"id": "M26", "definition": "ModelObject.v: sat_add_u8", "edit": "wrapping instead of saturating indentation", "claim": "C14", "refuted_statement": ["C14_no_wrap"], "first_failures": ["ProofStyle.ent_indent_range"], "blocked": ["PropColor.v", "PropDoc.v", "PropEnums.v", "PropFontDesc.v", "PropPages.v", "PropRoles.v", "PropSmall.v", "PropTree.v", "PropTwAnnot.v", "PropTwAttr.v", "PropTwDoc.v", "PropTwFiles.v", "PropTwFonts.v", "PropTwForms.v", "PropTwGraphics.v", "PropTwXObj.v"], "counterexample": "refuted"}
{"id": "M27", "definition": "ModelObject.v: array_drop", "edit": "array length not registered", "claim": "C20", "refuted_statement": ["C20_tree_limits_exact"], "first_failures": ["ProofObj.write_obj_inner"], "blocked": ["PropChunk.v", "PropCmap.v", "PropColor.v", "PropContent.v", "PropDoc.v", "PropEnums.v", "PropFontDesc.v", "PropLimits.v", "PropPages.v", "PropPdf.v", "PropPdf2.v", "PropPrim.v", "PropPs.v", "PropRenum.v", "PropRoles.v", "PropSmall.v", "PropTree.v", "PropTwAnnot.v", "PropTwAttr.v", "PropTwDoc.v", "PropTwFiles.v", "PropTwFonts.v", "PropTwForms.v", "PropTwGraphics.v", "PropTwXObj.v"], "counterexample": "refuted"}
{"id": "M28", "definition": "ModelObject.v: dict_drop", "edit": "dictionary size registered as array length", "claim": "C20", "refuted_statement": ["C20_tree_limits_exact"], "first_failures": ["ProofLimits.tree_limits"], "blocked": ["PropChunk.v", "PropColor.v", "PropDoc.v", "PropEnums.v", "PropFontDesc.v", "PropLimits.v", "PropPages.v", "PropPdf.v", "PropPdf2.v", "PropRenum.v", "PropRoles.v", "PropTwAnnot.v", "PropTwAttr.v", "PropTwDoc.v", "PropTwFiles.v", "PropTwFonts.v", "PropTwForms.v", "PropTwGraphics.v", "PropTwXObj.v"], "counterexample": "refuted"}
{"id": "M29", "definition": "ModelObject.v: write_rect", "edit": "rectangle not registered as array of length 4", "claim": "C20", "refuted_statement": ["C20_tree_limits_exact"], "first_failures": ["ProofObj.write_prim_inner"], "blocked": ["PropChunk.v", "PropCmap.v", "PropColor.v", "PropContent.v", "PropDoc.v", "PropEnums.v", "PropFontDesc.v", "PropLimits.v", "PropPages.v", "PropPdf.v", "PropPdf2.v", "PropPrim.v", "PropPs.v", "PropRenum.v", "PropRoles.v", "PropSmall.v", "PropTree.v", "PropTwAnnot.v", "PropTwAttr.v", "PropTwDoc.v", "PropTwFiles.v", "PropTwFonts.v", "PropTwForms.v", "PropTwGraphics.v", "PropTwXObj.v"], "counterexample": "refuted"}
{"id": "M30", "definition": "ModelObject.v: endobj", "edit": "blank line in the wrong mode", "claim": "layout only: C19 still holds; C12/C15 layout differ", "refuted_statement": ["C15_stream_layout (not affected)", "C31_renumber_is_rewriting"], "first_failures": ["ProofObj.endobj_inner"], "blocked": ["PropChunk.v", "PropCmap.v", "PropColor.v", "PropContent.v", "PropDoc.v", "PropEnums.v", "PropFontDesc.v", "PropLimits.v", "PropPages.v", "PropPdf.v", "PropPdf2.v", "PropPrim.v", "PropPs.v", "PropRenum.v", "PropRoles.v", "PropSmall.v", "PropTree.v", "PropTwAnnot.v", "PropTwAttr.v", "PropTwDoc.v", "PropTwFiles.v", "PropTwFonts.v", "PropTwForms.v", "PropTwGraphics.v", "PropTwXObj.v"], "counterexample": null}
{"id": "M31", "definition": "ModelObject.v: stream_start", "edit": "off by one in the length check", "claim": "C16", "refuted_statement": ["C16_stream_panics_iff_oversized"], "first_failures": ["ProofChunk.stream_holds"], "blocked": ["PropChunk.v", "PropCmap.v", "PropColor.v", "PropContent.v", "PropDoc.v", "PropEnums.v", "PropFontDesc.v", "PropLimits.v", "PropPages.v", "PropPdf.v", "PropPdf2.v", "PropPs.v", "PropRenum.v", "PropRoles.v", "PropTwAnnot.v", "PropTwAttr.v", "PropTwDoc.v", "PropTwFiles.v", "PropTwFonts.v", "PropTwForms.v", "PropTwGraphics.v", "PropTwXObj.v"], "counterexample": null}
{"id": "M32", "definition": "ModelObject.v: stream_start", "edit": "Length off by one (counts the newline)", "claim": "C15", "refuted_statement": ["C15_stream_layout", "C15_stream_reads_back"], "first_failures": ["ProofChunk.stream_holds"], "blocked": ["PropChunk.v", "PropCmap.v", "PropColor.v", "PropContent.v", "PropDoc.v", "PropEnums.v", "PropFontDesc.v", "PropLimits.v", "PropPages.v", "PropPdf.v", "PropPdf2.v", "PropPs.v", "PropRenum.v", "PropRoles.v", "PropTwAnnot.v", "PropTwAttr.v", "PropTwDoc.v", "PropTwFiles.v", "PropTwFonts.v", "PropTwForms.v", "PropTwGraphics.v", "PropTwXObj.v"], "counterexample": "refuted"}
{"id": "M33", "definition": "ModelObject.v: stream_drop", "edit": "no newline before endstream", "claim": "C15 layout", "refuted_statement": ["C15_stream_layout"], "first_failures": ["ProofChunk.stream_holds"], "blocked": ["PropChunk.v", "PropCmap.v", "PropColor.v", "PropContent.v", "PropDoc.v", "PropEnums.v", "PropFontDesc.v", "PropLimits.v", "PropPages.v", "PropPdf.v", "PropPdf2.v", "PropPs.v", "PropRenum.v", "PropRoles.v", "PropTwAnnot.v", "PropTwAttr.v", "PropTwDoc.v", "PropTwFiles.v", "PropTwFonts.v", "PropTwForms.v", "PropTwGraphics.v", "PropTwXObj.v"], "counterexample": "CEX FAILED: File \"./cex.v\", line 5, characters 217-231:\nError: Not a discriminable equality.\n\n"}
{"id": "M34", "definition": "ModelBuf.v: merge", "edit": "string limit merged from the name limit", "claim": "C21", "refuted_statement": ["C21_merge_commutative", "C21_merge_is_least_upper_bound"], "first_failures": ["ProofLimits.merge_fields"], "blocked": ["PropChunk.v", "PropColor.v", "PropDoc.v", "PropEnums.v", "PropFontDesc.v", "PropLimits.v", "PropPages.v", "PropPdf.v", "PropPdf2.v", "PropRenum.v", "PropRoles.v", "PropTwAnnot.v", "PropTwAttr.v", "PropTwDoc.v", "PropTwFiles.v", "PropTwFonts.v", "PropTwForms.v", "PropTwGraphics.v", "PropTwXObj.v"], "counterexample": "refuted"}
{"id": "M35", "definition": "ModelBuf.v: register_real", "edit": "absolute value dropped for reals", "claim": "C20", "refuted_statement": ["C20_tree_limits_exact"], "first_failures": ["ProofLimits.merge_fields", "PropPrim.C03_other_values_are_reals"], "blocked": ["PropChunk.v", "PropColor.v", "PropDoc.v", "PropEnums.v", "PropFontDesc.v", "PropLimits.v", "PropPages.v", "PropPdf.v", "PropPdf2.v", "PropPrim.v", "PropRenum.v", "PropRoles.v", "PropTwAnnot.v", "PropTwAttr.v", "PropTwDoc.v", "PropTwFiles.v", "PropTwFonts.v", "PropTwForms.v", "PropTwGraphics.v", "PropTwXObj.v"], "counterexample": "refuted"}
{"id": "M40", "definition": "ModelRenumber.v: rn_whitespace", "edit": "newline missing from the white space characters", "claim": "C31: stream data after \">>\\nstream\" is patched", "refuted_statement": ["C31_renumber_is_rewriting", "C31_renumber_pure"], "first_failures": ["ProofChunk.extract_item"], "blocked": ["PropChunk.v", "PropCmap.v", "PropColor.v", "PropContent.v", "PropDoc.v", "PropEnums.v", "PropFontDesc.v", "PropLimits.v", "PropPages.v", "PropPdf.v", "PropPdf2.v", "PropPs.v", "PropRenum.v", "PropRoles.v", "PropTwAnnot.v", "PropTwAttr.v", "PropTwDoc.v", "PropTwFiles.v", "PropTwFonts.v", "PropTwForms.v", "PropTwGraphics.v", "PropTwXObj.v"], "counterexample": "refuted"}
{"id": "M41", "definition": "ModelRenumber.v: skip_string", "edit": "backslash no longer skips the escaped byte", "claim": "C31: text of a string with an escaped parenthesis is patched", "refuted_statement": ["C31_renumber_is_rewriting", "C31_renumber_pure"], "first_failures": ["ProofRenumTree.skip_string_lit"], "blocked": ["PropChunk.v", "PropCmap.v", "PropColor.v", "PropContent.v", "PropDoc.v", "PropEnums.v", "PropFontDesc.v", "PropLimits.v", "PropPages.v", "PropPdf.v", "PropPdf2.v", "PropPs.v", "PropRenum.v", "PropRoles.v", "PropTwAnnot.v", "PropTwAttr.v", "PropTwDoc.v", "PropTwFiles.v", "PropTwFonts.v", "PropTwForms.v", "PropTwGraphics.v", "PropTwXObj.v"], "counterexample": "refuted"}
{"id": "M42", "definition": "ModelRenumber.v: skip_string", "edit": "wrong nesting depth at the closing parenthesis", "claim": "C31 for nested balanced strings", "refuted_statement": ["C31_renumber_is_rewriting", "C31_renumber_pure"], "first_failures": ["ProofRenumTree.skip_string_lit"], "blocked": ["PropChunk.v", "PropCmap.v", "PropColor.v", "PropContent.v", "PropDoc.v", "PropEnums.v", "PropFontDesc.v", "PropLimits.v", "PropPages.v", "PropPdf.v", "PropPdf2.v", "PropPs.v", "PropRenum.v", "PropRoles.v", "PropTwAnnot.v", "PropTwAttr.v", "PropTwDoc.v", "PropTwFiles.v", "PropTwFonts.v", "PropTwForms.v", "PropTwGraphics.v", "PropTwXObj.v"], "counterexample": "refuted"}
{"id": "M43", "definition": "ModelRenumber.v: patch_loop", "edit": "swapped number and generation of a reference", "claim": "C31", "refuted_statement": ["C31_renumber_is_rewriting", "C31_renumber_pure"], "first_failures": ["ProofRenum.patch_eager"], "blocked": ["PropChunk.v", "PropCmap.v", "PropColor.v", "PropContent.v", "PropDoc.v", "PropEnums.v", "PropFontDesc.v", "PropLimits.v", "PropPages.v", "PropPdf.v", "PropPdf2.v", "PropPs.v", "PropRenum.v", "PropRoles.v", "PropTwAnnot.v", "PropTwAttr.v", "PropTwDoc.v", "PropTwFiles.v", "PropTwFonts.v", "PropTwForms.v", "PropTwGraphics.v", "PropTwXObj.v"], "counterexample": "refuted"}
{"id": "M44", "definition": "ModelRenumber.v: renumber_loop", "edit": "object keeps its own id", "claim": "C31", "refuted_statement": ["C31_renumber_is_rewriting", "C31_renumber_pure"], "first_failures": ["ProofChunk.loop_holds"], "blocked": ["PropChunk.v", "PropCmap.v", "PropColor.v", "PropContent.v", "PropDoc.v", "PropEnums.v", "PropFontDesc.v", "PropLimits.v", "PropPages.v", "PropPdf.v", "PropPdf2.v", "PropPs.v", "PropRenum.v", "PropRoles.v", "PropTwAnnot.v", "PropTwAttr.v", "PropTwDoc.v", "PropTwFiles.v", "PropTwFonts.v", "PropTwForms.v", "PropTwGraphics.v", "PropTwXObj.v"], "counterexample": "refuted"}
{"id": "M45", "definition": "ModelRenumber.v: renumber_loop", "edit": "every slice extends to the end of the chunk", "claim": "C31", "refuted_statement": ["C31_renumber_is_rewriting", "C31_renumber_pure"], "first_failures": ["ProofChunk.loop_holds"], "blocked": ["PropChunk.v", "PropCmap.v", "PropColor.v", "PropContent.v", "PropDoc.v", "PropEnums.v", "PropFontDesc.v", "PropLimits.v", "PropPages.v", "PropPdf.v", "PropPdf2.v", "PropPs.v", "PropRenum.v", "PropRoles.v", "PropTwAnnot.v", "PropTwAttr.v", "PropTwDoc.v", "PropTwFiles.v", "PropTwFonts.v", "PropTwForms.v", "PropTwGraphics.v", "PropTwXObj.v"], "counterexample": "refuted"}
{"id": "M46", "definition": "ModelRenumber.v: extract_object", "edit": "first instead of last endobj", "claim": "C31 for strings containing endobj", "refuted_statement": ["C31_renumber_is_rewriting", "C31_renumber_pure"], "first_failures": ["ProofChunk.extract_item"], "blocked": ["PropChunk.v", "PropCmap.v", "PropColor.v", "PropContent.v", "PropDoc.v", "PropEnums.v", "PropFontDesc.v", "PropLimits.v", "PropPages.v", "PropPdf.v", "PropPdf2.v", "PropPs.v", "PropRenum.v", "PropRoles.v", "PropTwAnnot.v", "PropTwAttr.v", "PropTwDoc.v", "PropTwFiles.v", "PropTwFonts.v", "PropTwForms.v", "PropTwGraphics.v", "PropTwXObj.v"], "counterexample": "refuted"}
{"id": "M47", "definition": "ModelRenumber.v: patch_loop", "edit": "position of the copied text not advanced", "claim": "C31, C34", "refuted_statement": ["C31_renumber_is_rewriting", "C31_renumber_pure", "C34_scanner_total"], "first_failures": ["ProofRenum.patch_eager"], "blocked": ["PropChunk.v", "PropCmap.v", "PropColor.v", "PropContent.v", "PropDoc.v", "PropEnums.v", "PropFontDesc.v", "PropLimits.v", "PropPages.v", "PropPdf.v", "PropPdf2.v", "PropPs.v", "PropRenum.v", "PropRoles.v", "PropTwAnnot.v", "PropTwAttr.v", "PropTwDoc.v", "PropTwFiles.v", "PropTwFonts.v", "PropTwForms.v", "PropTwGraphics.v", "PropTwXObj.v"], "counterexample": "refuted"}
{"id": "M48", "definition": "ModelChunk.v: chunk_renumber_into", "edit": "limits of the source not merged", "claim": "C22: limits of a chunk cover everything it contains", "refuted_statement": ["C22_*", "C33_into_is_extend"], "first_failures": ["ProofChunk.renumber_holds"], "blocked": ["PropChunk.v", "PropCmap.v", "PropColor.v", "PropContent.v", "PropDoc.v", "PropEnums.v", "PropFontDesc.v", "PropLimits.v", "PropPages.v", "PropPdf.v", "PropPdf2.v", "PropPs.v", "PropRenum.v", "PropRoles.v", "PropTwAnnot.v", "PropTwAttr.v", "PropTwDoc.v", "PropTwFiles.v", "PropTwFonts.v", "PropTwForms.v", "PropTwGraphics.v", "PropTwXObj.v"], "counterexample": "refuted"}
{"id": "M49", "definition": "ModelChunk.v: chunk_extend", "edit": "offsets of the appended chunk not shifted", "claim": "C18, C17, C23", "refuted_statement": ["C17_offsets_ascend", "C18_extend_concatenates", "C23_table_entries"], "first_failures": ["ProofChunk.extend_holds"], "blocked": ["PropChunk.v", "PropCmap.v", "PropColor.v", "PropContent.v", "PropDoc.v", "PropEnums.v", "PropFontDesc.v", "PropLimits.v", "PropPages.v", "PropPdf.v", "PropPdf2.v", "PropPs.v", "PropRenum.v", "PropRoles.v", "PropTwAnnot.v", "PropTwAttr.v", "PropTwDoc.v", "PropTwFiles.v", "PropTwFonts.v", "PropTwForms.v", "PropTwGraphics.v", "PropTwXObj.v"], "counterexample": "refuted"}
{"id": "M50", "definition": "ModelChunk.v: chunk_extend", "edit": "settings taken from the other chunk", "claim": "C18 (fourth conjunct)", "refuted_statement": ["C18_extend_concatenates"], "first_failures": ["ProofChunk.run_holds"], "blocked": ["PropChunk.v", "PropCmap.v", "PropColor.v", "PropContent.v", "PropDoc.v", "PropEnums.v", "PropFontDesc.v", "PropLimits.v", "PropPages.v", "PropPdf.v", "PropPdf2.v", "PropPs.v", "PropRenum.v", "PropRoles.v", "PropTwAnnot.v", "PropTwAttr.v", "PropTwDoc.v", "PropTwFiles.v", "PropTwFonts.v", "PropTwForms.v", "PropTwGraphics.v", "PropTwXObj.v"], "counterexample": "refuted"}
{"id": "M51", "definition": "ModelChunk.v: chunk_indirect", "edit": "offset off by one", "claim": "C17, C23", "refuted_statement": ["C17_offsets_point_at_objects", "C23_table_entries"], "first_failures": ["ProofChunk.object_holds"], "blocked": ["PropChunk.v", "PropCmap.v", "PropColor.v", "PropContent.v", "PropDoc.v", "PropEnums.v", "PropFontDesc.v", "PropLimits.v", "PropPages.v", "PropPdf.v", "PropPdf2.v", "PropPs.v", "PropRenum.v", "PropRoles.v", "PropTwAnnot.v", "PropTwAttr.v", "PropTwDoc.v", "PropTwFiles.v", "PropTwFonts.v", "PropTwForms.v", "PropTwGraphics.v", "PropTwXObj.v"], "counterexample": "refuted"}
{"id": "M52", "definition": "ModelChunk.v: chunk_renumber_into", "edit": "offsets of the target are lost", "claim": "C17 (refs), C33_into_is_extend", "refuted_statement": ["C17_refs_in_order", "C33_into_is_extend"], "first_failures": ["ProofChunk.renumber_holds"], "blocked": ["PropChunk.v", "PropCmap.v", "PropColor.v", "PropContent.v", "PropDoc.v", "PropEnums.v", "PropFontDesc.v", "PropLimits.v", "PropPages.v", "PropPdf.v", "PropPdf2.v", "PropPs.v", "PropRenum.v", "PropRoles.v", "PropTwAnnot.v", "PropTwAttr.v", "PropTwDoc.v", "PropTwFiles.v", "PropTwFonts.v", "PropTwForms.v", "PropTwGraphics.v", "PropTwXObj.v"], "counterexample": "refuted"}
{"id": "M53", "definition": "ModelPdf.v: pdf_header", "edit": "header one byte shorter", "claim": "C29 (length 16)", "refuted_statement": ["C29_finish"], "first_failures": ["ProofPdf.run_spec"], "blocked": ["PropDoc.v", "PropPages.v", "PropPdf.v", "PropPdf2.v"], "counterexample": "refuted"}
{"id": "M54", "definition": "ModelPdf.v: set_binary_marker", "edit": "marker overwrites the percent sign", "claim": "C30", "refuted_statement": ["C30_set_binary_marker_is_local"], "first_failures": ["ProofPdf.marker_holds"], "blocked": ["PropDoc.v", "PropPages.v", "PropPdf.v", "PropPdf2.v"], "counterexample": "refuted"}
{"id": "M55", "definition": "ModelPdf.v: set_version", "edit": "minor version digit from major", "claim": "C30, C29", "refuted_statement": ["C30_set_version_is_local"], "first_failures": ["ProofPdf.version_holds"], "blocked": ["PropDoc.v", "PropPages.v", "PropPdf.v", "PropPdf2.v"], "counterexample": "refuted"}
{"id": "M56", "definition": "ModelPdf.v: set_version", "edit": "version 1.10 accepted: writes a colon", "claim": "C30", "refuted_statement": ["C30_set_version_is_local"], "first_failures": ["ProofPdf.version_holds"], "blocked": ["PropDoc.v", "PropPages.v", "PropPdf.v", "PropPdf2.v"], "counterexample": "refuted"}
{"id": "M57", "definition": "ModelPdf.v: next_free", "edit": "wrong comparison in the search of the next free id", "claim": "C24: a used object is on the free list", "refuted_statement": ["C24_free_list"], "first_failures": ["ProofXref.next_free_spec"], "blocked": ["PropDoc.v", "PropPages.v", "PropPdf.v", "PropPdf2.v"], "counterexample": "refuted"}
{"id": "M58", "definition": "ModelPdf.v: free_run", "edit": "generation 65535 for every free entry", "claim": "C24", "refuted_statement": ["C24_free_list"], "first_failures": ["ProofXref.free_run_spec"], "blocked": ["PropDoc.v", "PropPages.v", "PropPdf.v", "PropPdf2.v"], "counterexample": "refuted"}
{"id": "M59", "definition": "ModelPdf.v: free_run", "edit": "last free entry points past the table instead of to 0", "claim": "C24 (chain must end in 0)", "refuted_statement": ["C24_free_list"], "first_failures": ["ProofXref.free_run_spec"], "blocked": ["PropDoc.v", "PropPages.v", "PropPdf.v", "PropPdf2.v"], "counterexample": "refuted"}
{"id": "M60", "definition": "ModelPdf.v: offsets_loop", "edit": "duplicate ids not detected", "claim": "C25", "refuted_statement": ["C25_finish_panics_iff_duplicate"], "first_failures": ["ProofXref.offsets_loop_spec"], "blocked": ["PropDoc.v", "PropPages.v", "PropPdf.v", "PropPdf2.v"], "counterexample": "refuted"}
{"id": "M61", "definition": "ModelPdf.v: offsets_loop", "edit": "consecutive ids panic", "claim": "C25, C23", "refuted_statement": ["C25_finish_panics_iff_duplicate"], "first_failures": ["ProofXref.offsets_loop_spec"], "blocked": ["PropDoc.v", "PropPages.v", "PropPdf.v", "PropPdf2.v"], "counterexample": "refuted"}
{"id": "M62", "definition": "ModelPdf.v: plain_entry", "edit": "nine digit offsets", "claim": "C23_entry_size", "refuted_statement": ["C23_entry_size", "C23_table_entries"], "first_failures": ["ProofFile.entry20_plain"], "blocked": ["PropDoc.v", "PropPages.v", "PropPdf.v", "PropPdf2.v"], "counterexample": "refuted"}
{"id": "M63", "definition": "ModelPdf.v: stream_entry", "edit": "entry types swapped", "claim": "C27", "refuted_statement": ["C27_stream_entries"], "first_failures": ["ProofFile2.record_reads"], "blocked": ["PropDoc.v", "PropPages.v", "PropPdf.v", "PropPdf2.v"], "counterexample": "refuted"}
{"id": "M64", "definition": "ModelPdf.v: field_width", "edit": "rounded down", "claim": "C27, C28_width", "refuted_statement": ["C27_stream_entries", "C28_width"], "first_failures": ["ProofFile2.field_width_spec"], "blocked": ["PropDoc.v", "PropPages.v", "PropPdf.v", "PropPdf2.v"], "counterexample": "refuted"}
{"id": "M65", "definition": "ModelPdf.v: trailer_entries", "edit": "Info points at the catalog", "claim": "C29", "refuted_statement": ["C29_finish", "C29_stream"], "first_failures": ["ProofFile3.trailer_lookup"], "blocked": ["PropDoc.v", "PropPages.v", "PropPdf.v", "PropPdf2.v"], "counterexample": "refuted"}
{"id": "M66", "definition": "ModelPdf.v: finish", "edit": "startxref points at the trailer", "claim": "C23, C29", "refuted_statement": ["C23_table_entries", "C29_finish"], "first_failures": ["ProofFile2.finish_form"], "blocked": ["PropDoc.v", "PropPages.v", "PropPdf.v", "PropPdf2.v"], "counterexample": "refuted"}
{"id": "M67", "definition": "ModelPdf.v: finish_stream_inner", "edit": "the cross-reference stream has no entry of its own", "claim": "C27_own_entry", "refuted_statement": ["C27_own_entry", "C27_stream_entries"], "first_failures": ["ProofFile2.finish_stream_form"], "blocked": ["PropDoc.v", "PropPages.v", "PropPdf.v", "PropPdf2.v"], "counterexample": "refuted"}
{"id": "M68", "definition": "ModelPdf.v: filter_entries", "edit": "order of several filters reversed", "claim": "C27 (data can be decoded by the Filter entry)", "refuted_statement": ["C27_stream_entries", "C27_own_entry"], "first_failures": ["ProofFile3.stream_entries_readable"], "blocked": ["PropDoc.v", "PropPages.v", "PropPdf.v", "PropPdf2.v"], "counterexample": null}
{"id": "M69", "definition": "ModelPdf.v: trailer_entries", "edit": "halves of the file id swapped", "claim": "C29", "refuted_statement": ["C29_finish", "C29_stream"], "first_failures": ["ProofFile3.trailer_lookup"], "blocked": ["PropDoc.v", "PropPages.v", "PropPdf.v", "PropPdf2.v"], "counterexample": "refuted"}
{"id": "M70", "definition": "ModelPdf.v: write_offsets", "edit": "offsets not sorted", "claim": "C23, C25, C26", "refuted_statement": ["C26_write_order_does_not_matter", "C25_finish_panics_iff_duplicate"], "first_failures": ["ProofXref.write_offsets_spec"], "blocked": ["PropDoc.v", "PropPages.v", "PropPdf.v", "PropPdf2.v"], "counterexample": "refuted"}
{"id": "M71", "definition": "ModelPdf.v: pdf_catalog", "edit": "the first catalog wins instead of the last", "claim": "C29 (Root is the last catalog call)", "refuted_statement": ["C29_finish"], "first_failures": ["ProofPdf.step_spec"], "blocked": ["PropDoc.v", "PropPages.v", "PropPdf.v", "PropPdf2.v"], "counterexample": "refuted"}
{"id": "M72", "definition": "ModelPdf.v: finish_stream_inner", "edit": "width computed from a smaller offset", "claim": "C27", "refuted_statement": ["C27_stream_entries"], "first_failures": ["ProofFile2.finish_stream_form"], "blocked": ["PropDoc.v", "PropPages.v", "PropPdf.v", "PropPdf2.v"], "counterexample": "refuted"}
{"id": "P01", "definition": "ModelCrash.v: unwind", "edit": "an array left open by a panic is not closed", "claim": "C79: objects cut short still end", "refuted_statement": ["C79"], "first_failures": ["ProofCrash.drops_unwind"], "blocked": ["PropCrash.v", "PropOps.v"], "counterexample": null}
{"id": "P02", "definition": "ModelCrash.v: unwind", "edit": "a stream dropped by a panic loses its data", "claim": "C79", "refuted_statement": ["C79"], "first_failures": ["ProofCrash.drops_unwind"], "blocked": ["PropCrash.v", "PropOps.v"], "counterexample": null}
{"id": "P03", "definition": "ModelCrash.v: caught_stream", "edit": "oversized data: the open dictionary is not closed in the panic", "claim": "C79", "refuted_statement": ["C79"], "first_failures": ["ProofCrash.stream_too_long"], "blocked": ["PropCrash.v", "PropOps.v"], "counterexample": null}
{"id": "P04", "definition": "ModelCrash.v: caught_patch_loop", "edit": "a panicking closure leaves part of the object copied", "claim": "C79 (what is in the file after a panic in the closure)", "refuted_statement": ["C79"], "first_failures": ["ProofCrash.patch_caught"], "blocked": ["PropCrash.v", "PropOps.v"], "counterexample": null}
{"id": "P05", "definition": "ModelCrash.v: caught_renumber_loop", "edit": "offset recorded although the closure panicked before the object was written", "claim": "C79", "refuted_statement": ["C79"], "first_failures": ["ProofCrash.loop_caught"], "blocked": ["PropCrash.v", "PropOps.v"], "counterexample": null}
{"id": "P06", "definition": "ModelCrash.v: caught_step", "edit": "the catalog id is not stored if the catalog is cut short", "claim": "C79", "refuted_statement": ["C79"], "first_failures": ["PropCrash.step_crash"], "blocked": ["PropCrash.v", "PropOps.v"], "counterexample": null}
{"id": "P07", "definition": "ModelCrash.v: caught_step", "edit": "document_info registers the catalog", "claim": "C79", "refuted_statement": ["C79"], "first_failures": ["PropCrash.step_crash"], "blocked": ["PropCrash.v", "PropOps.v"], "counterexample": null}
{"id": "P08", "definition": "ModelCrash.v: caught_renumber_into", "edit": "limits not merged in renumber_into", "claim": "C79 / C20", "refuted_statement": ["C79"], "first_failures": ["ProofCrash.renumber_segs"], "blocked": ["PropCrash.v", "PropOps.v"], "counterexample": null}
{"id": "P09", "definition": "ModelOps.v: operand_primitive", "edit": "first is never cleared", "claim": "none (white space only)", "refuted_statement": [], "first_failures": ["PropOps.operand_primitive_spec"], "blocked": ["PropOps.v"], "counterexample": null}
{"id": "P10", "definition": "ModelOps.v: op_scope", "edit": "writers open in an operation are not closed", "claim": "C81", "refuted_statement": ["C81"], "first_failures": ["PropOps.C81_operation"], "blocked": ["PropOps.v"], "counterexample": null}
{"id": "P11", "definition": "ModelOps.v: op_scope", "edit": "the operator is not written if the operation is cut short", "claim": "C81", "refuted_statement": ["C81"], "first_failures": ["PropOps.C81_operation"], "blocked": ["PropOps.v"], "counterexample": null}
{"id": "P12", "definition": "ModelOps.v: open_operand", "edit": "compact mode: no padding before operands", "claim": "C81", "refuted_statement": ["C81"], "first_failures": ["PropOps.operand_open"], "blocked": ["PropOps.v"], "counterexample": null}
{"id": "P13", "definition": "ModelOps.v: content_op_step", "edit": "a failed assertion empties the content", "claim": "C81", "refuted_statement": ["C81"], "first_failures": ["PropOps.C81_content"], "blocked": ["PropOps.v"], "counterexample": null}
{"id": "P14", "definition": "ModelOps.v: op_run", "edit": "operands after an object are dropped", "claim": "C81", "refuted_statement": ["C81"], "first_failures": ["PropOps.so_far_run"], "blocked": ["PropOps.v"], "counterexample": null}
{"id": "N01", "definition": "ModelApi.v: array_item", "edit": "dropped update: item does not advance the length of the array", "claim": "C61: len and separators after item", "refuted_statement": ["C61"], "first_failures": ["ProofApi.items_expand"], "blocked": ["PropApi.v", "PropCrash.v", "PropOps.v", "PropOverflow.v"], "counterexample": null}
{"id": "N02", "definition": "ModelApi.v: api_step (CPairs on a stream)", "edit": "pairs on a stream dictionary written in reverse order", "claim": "C61: the written tree", "refuted_statement": ["C61"], "first_failures": ["ProofApi.step_expand"], "blocked": ["PropApi.v", "PropCrash.v", "PropOps.v", "PropOverflow.v"], "counterexample": null}
{"id": "N03", "definition": "ModelApi.v: api_step (CDrop of a stream)", "edit": "stream dropped as a dictionary: data missing", "claim": "C61", "refuted_statement": ["C61"], "first_failures": ["ProofApi.step_opened"], "blocked": ["PropApi.v", "PropCrash.v", "PropOps.v", "PropOverflow.v"], "counterexample": null}
{"id": "N04", "definition": "ModelApi.v: writer_is_empty", "edit": "wrong boundary in is_empty", "claim": "C61 is_empty", "refuted_statement": ["C61"], "first_failures": ["PropApi.C61_array_len"], "blocked": ["PropApi.v"], "counterexample": null}
{"id": "N05", "definition": "ModelApi.v: api_stream", "edit": "stream: offsets forgotten", "claim": "C61/C15", "refuted_statement": ["C61"], "first_failures": ["PropApi.C61_chunk_stream"], "blocked": ["PropApi.v"], "counterexample": null}
{"id": "N06", "definition": "ModelMerge.v: extend_by_pdf", "edit": "swapped arguments: the chunk is appended to the pdf bytes", "claim": "C78", "refuted_statement": ["C78"], "first_failures": ["PropMerge.C78_extend"], "blocked": ["PropMerge.v"], "counterexample": null}
{"id": "N07", "definition": "ModelMerge.v: pdf_renumber_into_pdf", "edit": "the renumbered objects land in the source document (its catalog id is kept instead of the target one)", "claim": "C78", "refuted_statement": ["C78"], "first_failures": ["PropMerge.C78_copy_is_a_call"], "blocked": ["PropMerge.v"], "counterexample": null}
{"id": "N08", "definition": "ModelMerge.v: pdf_extend_by_pdf", "edit": "extending a document replaces its catalog", "claim": "C78", "refuted_statement": ["C78"], "first_failures": ["PropMerge.ext_trailer"], "blocked": ["PropMerge.v"], "counterexample": null}
{"id": "N09", "definition": "ModelPart.v: memo", "edit": "the map returns the old id on the second look-up", "claim": "C59/C60/C77 renumbering with the documented closure", "refuted_statement": ["C60"], "first_failures": ["Conform.test_renumber", "ProofPart.memo_run"], "blocked": ["PropActions.v", "PropAppear.v", "PropAssembled.v", "PropColors.v", "PropForm.v", "PropFunctions.v", "PropGlyphs.v", "PropInfo.v", "PropMerged.v", "PropNames.v", "PropNav.v", "PropPaint.v", "PropPart.v", "PropSizes.v", "PropTagged.v"], "counterexample": null}
{"id": "N10", "definition": "ModelPart.v: memo", "edit": "dropped update: the map is never filled, each occurrence gets a new id", "claim": "C59/C60", "refuted_statement": ["C60"], "first_failures": ["Conform.test_renumber", "ProofPart.memo_run"], "blocked": ["PropActions.v", "PropAppear.v", "PropAssembled.v", "PropColors.v", "PropForm.v", "PropFunctions.v", "PropGlyphs.v", "PropInfo.v", "PropMerged.v", "PropNames.v", "PropNav.v", "PropPaint.v", "PropPart.v", "PropSizes.v", "PropTagged.v"], "counterexample": null}
{"id": "N11", "definition": "ModelPart.v: part_hist", "edit": "swapped arguments of extend", "claim": "C59", "refuted_statement": ["C59"], "first_failures": ["ProofPart.part_spec"], "blocked": ["PropActions.v", "PropAppear.v", "PropAssembled.v", "PropColors.v", "PropForm.v", "PropFunctions.v", "PropGlyphs.v", "PropInfo.v", "PropMerged.v", "PropNames.v", "PropNav.v", "PropPaint.v", "PropPart.v", "PropSizes.v", "PropTagged.v"], "counterexample": null}
{"id": "N12", "definition": "ModelDoc.v: chunk_call_body", "edit": "cid_font wraps the dictionary in an array", "claim": "C57", "refuted_statement": ["C57"], "first_failures": ["ProofDoc.chunk_call_good"], "blocked": ["PropActions.v", "PropAppear.v", "PropAssembled.v", "PropColors.v", "PropDoc.v", "PropExtract.v", "PropForm.v", "PropFunctions.v", "PropGlyphs.v", "PropInfo.v", "PropMerged.v", "PropNames.v", "PropNav.v", "PropPages.v", "PropPaint.v", "PropPart.v", "PropSizes.v", "PropTagged.v"], "counterexample": null}
{"id": "N13", "definition": "ModelDoc.v: chunk_call_body", "edit": "metadata writes its entries twice", "claim": "C57", "refuted_statement": ["C57"], "first_failures": ["ProofDoc.chunk_call_good", "ProofRename.chunk_call_ren_body"], "blocked": ["PropActions.v", "PropAppear.v", "PropAssembled.v", "PropColors.v", "PropDoc.v", "PropExtract.v", "PropForm.v", "PropFunctions.v", "PropGlyphs.v", "PropInfo.v", "PropMerged.v", "PropNames.v", "PropNav.v", "PropPages.v", "PropPaint.v", "PropPart.v", "PropSizes.v", "PropTagged.v"], "counterexample": null}
{"id": "N14", "definition": "ModelDoc.v: doc_op_plain", "edit": "document_info registers the catalog", "claim": "C57/C74", "refuted_statement": ["C57"], "first_failures": ["PropDoc.doc_op_spec"], "blocked": ["PropActions.v", "PropAppear.v", "PropAssembled.v", "PropColors.v", "PropDoc.v", "PropExtract.v", "PropForm.v", "PropFunctions.v", "PropGlyphs.v", "PropInfo.v", "PropMerged.v", "PropNames.v", "PropNav.v", "PropPages.v", "PropPaint.v", "PropPart.v", "PropSizes.v", "PropTagged.v"], "counterexample": null}
{"id": "N15", "definition": "ModelFontDesc.v: ov_entries", "edit": "override descriptors lose their Type", "claim": "C51/C56 font descriptors", "refuted_statement": ["C55"], "first_failures": ["ProofFontDesc.ov_custom", "ProofRename.ren_fd_entries"], "blocked": ["PropActions.v", "PropAppear.v", "PropAssembled.v", "PropColors.v", "PropDoc.v", "PropExtract.v", "PropFontDesc.v", "PropForm.v", "PropFunctions.v", "PropGlyphs.v", "PropInfo.v", "PropMerged.v", "PropNames.v", "PropNav.v", "PropPages.v", "PropPaint.v", "PropPart.v", "PropSizes.v", "PropTagged.v"], "counterexample": null}
{"id": "N16", "definition": "ModelFontDesc.v: fd_entries", "edit": "swapped class bytes of the style", "claim": "font descriptors", "refuted_statement": ["C55"], "first_failures": ["ProofFontDesc.fd_step"], "blocked": ["PropActions.v", "PropAppear.v", "PropAssembled.v", "PropColors.v", "PropDoc.v", "PropExtract.v", "PropFontDesc.v", "PropForm.v", "PropFunctions.v", "PropGlyphs.v", "PropInfo.v", "PropMerged.v", "PropNames.v", "PropNav.v", "PropPages.v", "PropPaint.v", "PropPart.v", "PropSizes.v", "PropTagged.v"], "counterexample": null}
{"id": "N17", "definition": "ModelFontDesc.v: fd_entries", "edit": "FontFile3 written as FontFile2", "claim": "font descriptors, C76", "refuted_statement": ["C55"], "first_failures": ["ProofFontDesc.fd_step"], "blocked": ["PropActions.v", "PropAppear.v", "PropAssembled.v", "PropColors.v", "PropDoc.v", "PropExtract.v", "PropFontDesc.v", "PropForm.v", "PropFunctions.v", "PropGlyphs.v", "PropInfo.v", "PropMerged.v", "PropNames.v", "PropNav.v", "PropPages.v", "PropPaint.v", "PropPart.v", "PropSizes.v", "PropTagged.v"], "counterexample": null}
{"id": "N18", "definition": "ModelSmall.v: is_uniform", "edit": "is_uniform ignores the end side", "claim": "C41", "refuted_statement": ["C41"], "first_failures": ["PropSmall.sides_reals_fm"], "blocked": ["PropActions.v", "PropAppear.v", "PropAssembled.v", "PropColors.v", "PropDoc.v", "PropExtract.v", "PropFontDesc.v", "PropForm.v", "PropFunctions.v", "PropGlyphs.v", "PropInfo.v", "PropMerged.v", "PropNames.v", "PropNav.v", "PropPages.v", "PropPaint.v", "PropPart.v", "PropSizes.v", "PropSmall.v", "PropTagged.v", "PropTwAnnot.v", "PropTwAttr.v", "PropTwDoc.v", "PropTwFiles.v", "PropTwFonts.v", "PropTwForms.v", "PropTwGraphics.v", "PropTwXObj.v"], "counterexample": null}
{"id": "N19", "definition": "ModelSmall.v: sides_array", "edit": "order of sides", "claim": "C41", "refuted_statement": ["C41"], "first_failures": ["PropSmall.sides_reals_fm"], "blocked": ["PropActions.v", "PropAppear.v", "PropAssembled.v", "PropColors.v", "PropDoc.v", "PropExtract.v", "PropFontDesc.v", "PropForm.v", "PropFunctions.v", "PropGlyphs.v", "PropInfo.v", "PropMerged.v", "PropNames.v", "PropNav.v", "PropPages.v", "PropPaint.v", "PropPart.v", "PropSizes.v", "PropSmall.v", "PropTagged.v", "PropTwAnnot.v", "PropTwAttr.v", "PropTwDoc.v", "PropTwFiles.v", "PropTwFonts.v", "PropTwForms.v", "PropTwGraphics.v", "PropTwXObj.v"], "counterexample": null}
{"id": "N20", "definition": "ModelSmall.v: number_tree_entry", "edit": "pairs nested instead of flat", "claim": "C45 trees", "refuted_statement": ["C45"], "first_failures": ["PropSmall.number_tree_fm", "ProofRename.ren_number_entry"], "blocked": ["PropActions.v", "PropAppear.v", "PropAssembled.v", "PropColors.v", "PropDoc.v", "PropExtract.v", "PropFontDesc.v", "PropForm.v", "PropFunctions.v", "PropGlyphs.v", "PropInfo.v", "PropMerged.v", "PropNames.v", "PropNav.v", "PropPages.v", "PropPaint.v", "PropPart.v", "PropSizes.v", "PropSmall.v", "PropTagged.v", "PropTwAnnot.v", "PropTwAttr.v", "PropTwDoc.v", "PropTwFiles.v", "PropTwFonts.v", "PropTwForms.v", "PropTwGraphics.v", "PropTwXObj.v"], "counterexample": null}
{"id": "N21", "definition": "ModelSmall.v: width_items", "edit": "count instead of the last code", "claim": "C47 widths", "refuted_statement": ["C47"], "first_failures": ["ProofSmall.widths_read"], "blocked": ["PropActions.v", "PropAppear.v", "PropAssembled.v", "PropColors.v", "PropDoc.v", "PropEnums.v", "PropExtract.v", "PropFontDesc.v", "PropForm.v", "PropFunctions.v", "PropGlyphs.v", "PropInfo.v", "PropMerged.v", "PropNames.v", "PropNav.v", "PropPages.v", "PropPaint.v", "PropPart.v", "PropRoles.v", "PropSizes.v", "PropSmall.v", "PropTagged.v", "PropTwAnnot.v", "PropTwAttr.v", "PropTwDoc.v", "PropTwFiles.v", "PropTwFonts.v", "PropTwForms.v", "PropTwGraphics.v", "PropTwXObj.v"], "counterexample": null}
{"id": "N22", "definition": "ModelSmall.v: diff_items", "edit": "start code missing", "claim": "C46 differences", "refuted_statement": ["C46"], "first_failures": ["ProofSmall.diff_read"], "blocked": ["PropActions.v", "PropAppear.v", "PropAssembled.v", "PropColors.v", "PropDoc.v", "PropEnums.v", "PropExtract.v", "PropFontDesc.v", "PropForm.v", "PropFunctions.v", "PropGlyphs.v", "PropInfo.v", "PropMerged.v", "PropNames.v", "PropNav.v", "PropPages.v", "PropPaint.v", "PropPart.v", "PropRoles.v", "PropSizes.v", "PropSmall.v", "PropTagged.v", "PropTwAnnot.v", "PropTwAttr.v", "PropTwDoc.v", "PropTwFiles.v", "PropTwFonts.v", "PropTwForms.v", "PropTwGraphics.v", "PropTwXObj.v"], "counterexample": null}
{"id": "N23", "definition": "ModelTw.v: flags_bits", "edit": "xor instead of or", "claim": "flags", "refuted_statement": ["C44"], "first_failures": ["ProofTw.good_flags"], "blocked": ["PropActions.v", "PropAppear.v", "PropAssembled.v", "PropColors.v", "PropDoc.v", "PropEnums.v", "PropExtract.v", "PropFontDesc.v", "PropForm.v", "PropFunctions.v", "PropGlyphs.v", "PropInfo.v", "PropMerged.v", "PropNames.v", "PropNav.v", "PropPages.v", "PropPaint.v", "PropPart.v", "PropRoles.v", "PropSizes.v", "PropTagged.v", "PropTwAnnot.v", "PropTwAttr.v", "PropTwDoc.v", "PropTwFiles.v", "PropTwFonts.v", "PropTwForms.v", "PropTwGraphics.v", "PropTwXObj.v"], "counterexample": null}
{"id": "N24", "definition": "ModelTw.v: stream_writer", "edit": "stream headers (Type/Subtype) dropped", "claim": "streams", "refuted_statement": ["C48"], "first_failures": ["ProofTw.good_stream", "Conform.test_chunk_limits", "ProofRename.ren_stream_writer"], "blocked": ["PropActions.v", "PropAppear.v", "PropAssembled.v", "PropColors.v", "PropDoc.v", "PropEnums.v", "PropExtract.v", "PropFontDesc.v", "PropForm.v", "PropFunctions.v", "PropGlyphs.v", "PropInfo.v", "PropMerged.v", "PropNames.v", "PropNav.v", "PropPages.v", "PropPaint.v", "PropPart.v", "PropRoles.v", "PropSizes.v", "PropTagged.v", "PropTwAnnot.v", "PropTwAttr.v", "PropTwDoc.v", "PropTwFiles.v", "PropTwFonts.v", "PropTwForms.v", "PropTwGraphics.v", "PropTwXObj.v"], "counterexample": null}
{"id": "N25", "definition": "ModelTwArgs.v: border_items", "edit": "an empty dash array is always written", "claim": "annotations border", "refuted_statement": ["C50"], "first_failures": ["ProofTwArgs.good_border"], "blocked": ["PropActions.v", "PropAppear.v", "PropAssembled.v", "PropColors.v", "PropDoc.v", "PropExtract.v", "PropFontDesc.v", "PropForm.v", "PropFunctions.v", "PropGlyphs.v", "PropInfo.v", "PropMerged.v", "PropNames.v", "PropNav.v", "PropPages.v", "PropPaint.v", "PropPart.v", "PropSizes.v", "PropTagged.v", "PropTwAnnot.v", "PropTwAttr.v", "PropTwDoc.v", "PropTwFiles.v", "PropTwFonts.v", "PropTwForms.v", "PropTwGraphics.v", "PropTwXObj.v"], "counterexample": null}
{"id": "N26", "definition": "ModelTwArgs.v: into_ascii", "edit": "two flags swapped", "claim": "C53 key usage", "refuted_statement": ["C53"], "first_failures": ["ProofTwArgs.good_key_usage"], "blocked": ["PropActions.v", "PropAppear.v", "PropAssembled.v", "PropColors.v", "PropDoc.v", "PropExtract.v", "PropFontDesc.v", "PropForm.v", "PropFunctions.v", "PropGlyphs.v", "PropInfo.v", "PropMerged.v", "PropNames.v", "PropNav.v", "PropPages.v", "PropPaint.v", "PropPart.v", "PropSizes.v", "PropTagged.v", "PropTwAnnot.v", "PropTwAttr.v", "PropTwDoc.v", "PropTwFiles.v", "PropTwFonts.v", "PropTwForms.v", "PropTwGraphics.v", "PropTwXObj.v"], "counterexample": null}
{"id": "N27", "definition": "ModelCmap.v: cmap_pair", "edit": "blocks of 101 mappings", "claim": "C38 (at most 100 per block)", "refuted_statement": ["C38"], "first_failures": ["ProofCmap.cmap_pair_state"], "blocked": ["PropActions.v", "PropAppear.v", "PropAssembled.v", "PropCmap.v", "PropColors.v", "PropExtract.v", "PropForm.v", "PropFunctions.v", "PropGlyphs.v", "PropInfo.v", "PropNames.v", "PropNav.v", "PropPaint.v", "PropSizes.v", "PropTagged.v"], "counterexample": null}
{"id": "N28", "definition": "ModelCmap.v: cmap_flush", "edit": "mappings not cleared", "claim": "C38", "refuted_statement": ["C38"], "first_failures": ["ProofCmap.cmap_flush_state"], "blocked": ["PropActions.v", "PropAppear.v", "PropAssembled.v", "PropCmap.v", "PropColors.v", "PropExtract.v", "PropForm.v", "PropFunctions.v", "PropGlyphs.v", "PropInfo.v", "PropNames.v", "PropNav.v", "PropPaint.v", "PropSizes.v", "PropTagged.v"], "counterexample": null}
{"id": "N29", "definition": "ModelCmap.v: cmap_flush", "edit": "count not reset", "claim": "C38", "refuted_statement": ["C38"], "first_failures": ["ProofCmap.cmap_flush_state"], "blocked": ["PropActions.v", "PropAppear.v", "PropAssembled.v", "PropCmap.v", "PropColors.v", "PropExtract.v", "PropForm.v", "PropFunctions.v", "PropGlyphs.v", "PropInfo.v", "PropNames.v", "PropNav.v", "PropPaint.v", "PropSizes.v", "PropTagged.v"], "counterexample": null}
{"id": "N30", "definition": "ModelCmap.v: glyph_max", "edit": "code space range too small", "claim": "C38", "refuted_statement": ["C38"], "first_failures": ["PropCmap.C38_mappings"], "blocked": ["PropActions.v", "PropAppear.v", "PropAssembled.v", "PropCmap.v", "PropColors.v", "PropExtract.v", "PropForm.v", "PropFunctions.v", "PropGlyphs.v", "PropInfo.v", "PropNames.v", "PropNav.v", "PropPaint.v", "PropSizes.v", "PropTagged.v"], "counterexample": null}
{"id": "N31", "definition": "ModelCmap.v: cmap_finish", "edit": "last block not flushed", "claim": "C38", "refuted_statement": ["C38"], "first_failures": ["ProofCmap.cmap_build_inner"], "blocked": ["PropActions.v", "PropAppear.v", "PropAssembled.v", "PropCmap.v", "PropColors.v", "PropExtract.v", "PropForm.v", "PropFunctions.v", "PropGlyphs.v", "PropInfo.v", "PropNames.v", "PropNav.v", "PropPaint.v", "PropSizes.v", "PropTagged.v"], "counterexample": null}
{"id": "N32", "definition": "ModelContent.v: op_drop", "edit": "no separator between delimiter and operator in pretty mode; none at all in compact mode", "claim": "C35 operators", "refuted_statement": ["C35"], "first_failures": ["ProofContent.op_drop_inner", "PropDefaults.C12_content_settings", "Conform.test_content_text"], "blocked": ["PropActions.v", "PropAppear.v", "PropAssembled.v", "PropColors.v", "PropContent.v", "PropDefaults.v", "PropExtract.v", "PropForm.v", "PropFunctions.v", "PropGlyphs.v", "PropInfo.v", "PropMerged.v", "PropNames.v", "PropNav.v", "PropOps.v", "PropPages.v", "PropPaint.v", "PropSizes.v", "PropTagged.v"], "counterexample": null}
{"id": "N33", "definition": "ModelContent.v: content_finish", "edit": "the last byte is always removed", "claim": "C35", "refuted_statement": ["C35"], "first_failures": ["PropContent.C36_finish_strips_one_newline", "Conform.test_content_encoding"], "blocked": ["PropActions.v", "PropAppear.v", "PropAssembled.v", "PropColors.v", "PropContent.v", "PropExtract.v", "PropForm.v", "PropFunctions.v", "PropGlyphs.v", "PropInfo.v", "PropMerged.v", "PropNames.v", "PropNav.v", "PropOps.v", "PropPages.v", "PropPaint.v", "PropSizes.v", "PropTagged.v"], "counterexample": null}
{"id": "N34", "definition": "ModelContent.v: call_op", "edit": "missing second operand", "claim": "C36", "refuted_statement": ["C36"], "first_failures": ["ProofContent.iso_call"], "blocked": ["PropActions.v", "PropAppear.v", "PropAssembled.v", "PropColors.v", "PropContent.v", "PropExtract.v", "PropForm.v", "PropFunctions.v", "PropGlyphs.v", "PropInfo.v", "PropMerged.v", "PropNames.v", "PropNav.v", "PropOps.v", "PropPages.v", "PropPaint.v", "PropSizes.v", "PropTagged.v"], "counterexample": null}
{"id": "N35", "definition": "ModelContent.v: call_op", "edit": "swapped operands", "claim": "C36", "refuted_statement": ["C36"], "first_failures": ["ProofContent.iso_call"], "blocked": ["PropActions.v", "PropAppear.v", "PropAssembled.v", "PropColors.v", "PropContent.v", "PropExtract.v", "PropForm.v", "PropFunctions.v", "PropGlyphs.v", "PropInfo.v", "PropMerged.v", "PropNames.v", "PropNav.v", "PropOps.v", "PropPages.v", "PropPaint.v", "PropSizes.v", "PropTagged.v"], "counterexample": null}
{"id": "N36", "definition": "ModelContent.v: op_operands", "edit": "first never cleared: each operand on a new line", "claim": "none (white space only) - equivalent for the claims", "refuted_statement": [], "first_failures": ["ProofContent.op_operands_inner", "PropDefaults.C12_content_settings", "Conform.test_content_encoding"], "blocked": ["PropActions.v", "PropAppear.v", "PropAssembled.v", "PropColors.v", "PropContent.v", "PropDefaults.v", "PropExtract.v", "PropForm.v", "PropFunctions.v", "PropGlyphs.v", "PropInfo.v", "PropMerged.v", "PropNames.v", "PropNav.v", "PropOps.v", "PropPages.v", "PropPaint.v", "PropSizes.v", "PropTagged.v"], "counterexample": null}
{"id": "N37", "definition": "ModelColor.v: devn_step", "edit": "second tint transform allowed", "claim": "C40 guards", "refuted_statement": ["C40"], "first_failures": ["ProofColor.devn_attrs"], "blocked": ["PropActions.v", "PropAppear.v", "PropAssembled.v", "PropColor.v", "PropColors.v", "PropDoc.v", "PropEnums.v", "PropExtract.v", "PropFontDesc.v", "PropForm.v", "PropFunctions.v", "PropGlyphs.v", "PropInfo.v", "PropMerged.v", "PropNames.v", "PropNav.v", "PropPages.v", "PropPaint.v", "PropPart.v", "PropRoles.v", "PropSizes.v", "PropSmall.v", "PropTagged.v", "PropTwAnnot.v", "PropTwAttr.v", "PropTwDoc.v", "PropTwFiles.v", "PropTwFonts.v", "PropTwForms.v", "PropTwGraphics.v", "PropTwXObj.v"], "counterexample": null}
{"id": "N38", "definition": "ModelColor.v: sep_step", "edit": "flag not set", "claim": "C40 guards", "refuted_statement": ["C40"], "first_failures": ["ProofColor.sep_order"], "blocked": ["PropActions.v", "PropAppear.v", "PropAssembled.v", "PropColor.v", "PropColors.v", "PropDoc.v", "PropEnums.v", "PropExtract.v", "PropFontDesc.v", "PropForm.v", "PropFunctions.v", "PropGlyphs.v", "PropInfo.v", "PropMerged.v", "PropNames.v", "PropNav.v", "PropPages.v", "PropPaint.v", "PropPart.v", "PropRoles.v", "PropSizes.v", "PropSmall.v", "PropTagged.v", "PropTwAnnot.v", "PropTwAttr.v", "PropTwDoc.v", "PropTwFiles.v", "PropTwFonts.v", "PropTwForms.v", "PropTwGraphics.v", "PropTwXObj.v"], "counterexample": null}
{"id": "N39", "definition": "ModelColor.v: run_parts", "edit": "state not threaded", "claim": "C40 guards", "refuted_statement": ["C40"], "first_failures": ["ProofColor.run_parts_forall2", "ProofRename.run_parts_ren"], "blocked": ["PropActions.v", "PropAppear.v", "PropAssembled.v", "PropColor.v", "PropColors.v", "PropDoc.v", "PropEnums.v", "PropExtract.v", "PropFontDesc.v", "PropForm.v", "PropFunctions.v", "PropGlyphs.v", "PropInfo.v", "PropMerged.v", "PropNames.v", "PropNav.v", "PropPages.v", "PropPaint.v", "PropPart.v", "PropRoles.v", "PropSizes.v", "PropSmall.v", "PropTagged.v", "PropTwAnnot.v", "PropTwAttr.v", "PropTwDoc.v", "PropTwFiles.v", "PropTwFonts.v", "PropTwForms.v", "PropTwGraphics.v", "PropTwXObj.v"], "counterexample": null}
{"id": "N40", "definition": "ModelOverflow.v: i32_succ", "edit": "wrong boundary", "claim": "C63", "refuted_statement": ["C63"], "first_failures": ["ProofOverflow.succ_agrees"], "blocked": ["PropOverflow.v"], "counterexample": null}
{"id": "N41", "definition": "ModelOverflow.v: i32_abs", "edit": "abs of i32::MIN becomes 2^31 in release builds", "claim": "C63", "refuted_statement": ["C63"], "first_failures": ["ProofOverflow.push_int_agrees"], "blocked": ["PropOverflow.v"], "counterexample": null}
{"id": "N42", "definition": "ModelOverflow.v: is_balanced_in", "edit": "wrong boundary", "claim": "C63", "refuted_statement": ["C63"], "first_failures": ["ProofOverflow.release_balanced"], "blocked": ["PropOverflow.v"], "counterexample": null}
{"id": "N43", "definition": "ModelRoles.v: StructRole2_name", "edit": "buffer too small for H10000", "claim": "C42", "refuted_statement": ["C42"], "first_failures": ["PropRoles.C42_role2_names", "Conform.test_max_heading_name"], "blocked": ["PropActions.v", "PropAppear.v", "PropAssembled.v", "PropColors.v", "PropDoc.v", "PropExtract.v", "PropFontDesc.v", "PropForm.v", "PropFunctions.v", "PropGlyphs.v", "PropInfo.v", "PropMerged.v", "PropNames.v", "PropNav.v", "PropPages.v", "PropPaint.v", "PropPart.v", "PropRoles.v", "PropSizes.v", "PropTagged.v", "PropTwAnnot.v", "PropTwAttr.v", "PropTwDoc.v", "PropTwFiles.v", "PropTwFonts.v", "PropTwForms.v", "PropTwGraphics.v", "PropTwXObj.v"], "counterexample": null}
{"id": "R01", "definition": "ModelLeak.v: leaked_object", "edit": "writers open at the end of the scope are not closed", "claim": "C96: an object none of whose writers was forgotten is whole", "refuted_statement": ["C96"], "first_failures": ["ProofLeak.leaked_object_segs"], "blocked": ["PropLeak.v"], "counterexample": null}
{"id": "R02", "definition": "ModelCrash.v: caught_renumber_loop", "edit": "renumbering stops at the first object that cannot be extracted", "claim": "C96: every whole object of the source is copied", "refuted_statement": ["C96"], "first_failures": ["PropCrash.C79_renumber_without_panic"], "blocked": ["PropCrash.v", "PropLeak.v", "PropOps.v"], "counterexample": null}
{"id": "R03", "definition": "ModelCrash.v: caught_renumber_loop", "edit": "an object that cannot be extracted is unwrapped: panic", "claim": "C96: renumbering never panics by itself", "refuted_statement": ["C96"], "first_failures": ["PropCrash.C79_renumber_without_panic"], "blocked": ["PropCrash.v", "PropLeak.v", "PropOps.v"], "counterexample": null}
{"id": "R04", "definition": "ModelCrash.v: caught_renumber_loop", "edit": "the offset of an object that is left out is recorded", "claim": "C96: what the document leaves (two ids at one offset)", "refuted_statement": ["C96"], "first_failures": ["PropCrash.C79_renumber_without_panic"], "blocked": ["PropCrash.v", "PropLeak.v", "PropOps.v"], "counterexample": null}
{"id": "R05", "definition": "ModelLeak.v: leak_pdf_step", "edit": "catalog id not stored", "claim": "C96: the trailer is as asked", "refuted_statement": ["C96"], "first_failures": ["ProofLeak.step_leak"], "blocked": ["PropLeak.v"], "counterexample": null}
{"id": "R07", "definition": "ModelCrash.v: caught_renumber_loop", "edit": "every slice goes to the end of the chunk", "claim": "C79, C96", "refuted_statement": ["C79", "C96"], "first_failures": ["ProofCrash.loop_caught"], "blocked": ["PropCrash.v", "PropLeak.v", "PropOps.v"], "counterexample": null}
{"id": "R08", "definition": "ModelTwGraphics.v: PropertyList_entries", "edit": "marked-content id off by one", "claim": "C92, C69, C50", "refuted_statement": ["C92"], "first_failures": ["ProofTwGraphics.PropertyList_good", "Conform.test_content_dict_no_pretty"], "blocked": ["PropActions.v", "PropAppear.v", "PropAssembled.v", "PropAttrs.v", "PropBack.v", "PropColors.v", "PropDoc.v", "PropExtract.v", "PropFaces.v", "PropFields.v", "PropForm.v", "PropFunctions.v", "PropGlyphs.v", "PropImages.v", "PropInfo.v", "PropMarked.v", "PropMarks.v", "PropMerged.v", "PropNames.v", "PropNav.v", "PropPages.v", "PropPaint.v", "PropPart.v", "PropPresent.v", "PropSizes.v", "PropStates.v", "PropTagged.v", "PropTwAnnot.v", "PropTwAttr.v", "PropTwDoc.v", "PropTwFonts.v", "PropTwForms.v", "PropTwGraphics.v", "PropTwXObj.v", "PropType3.v"], "counterexample": null}
{"id": "R09", "definition": "ModelTw.v: l6", "edit": "halves of a matrix swapped", "claim": "C94, C86, C90", "refuted_statement": ["C94"], "first_failures": ["ProofTw.good_6"], "blocked": ["PropActions.v", "PropAppear.v", "PropAssembled.v", "PropAttrs.v", "PropBack.v", "PropColors.v", "PropDoc.v", "PropEnums.v", "PropExtract.v", "PropFaces.v", "PropFields.v", "PropFontDesc.v", "PropForm.v", "PropFunctions.v", "PropGlyphs.v", "PropImages.v", "PropInfo.v", "PropMarked.v", "PropMarks.v", "PropMerged.v", "PropNames.v", "PropNav.v", "PropPages.v", "PropPaint.v", "PropPart.v", "PropPresent.v", "PropRoles.v", "PropSizes.v", "PropStates.v", "PropTagged.v", "PropTwAnnot.v", "PropTwAttr.v", "PropTwDoc.v", "PropTwFiles.v", "PropTwFonts.v", "PropTwForms.v", "PropTwGraphics.v", "PropTwXObj.v", "PropType3.v"], "counterexample": null}
{"id": "R10", "definition": "ModelColor.v: l4", "edit": "domain of a function shading in the wrong order", "claim": "C94", "refuted_statement": ["C94"], "first_failures": ["ProofColor.cs_reads_all"], "blocked": ["PropActions.v", "PropAppear.v", "PropAssembled.v", "PropAttrs.v", "PropBack.v", "PropColor.v", "PropColors.v", "PropDoc.v", "PropEnums.v", "PropExtract.v", "PropFaces.v", "PropFields.v", "PropFontDesc.v", "PropForm.v", "PropFunctions.v", "PropGlyphs.v", "PropImages.v", "PropInfo.v", "PropMarked.v", "PropMarks.v", "PropMerged.v", "PropNames.v", "PropNav.v", "PropPages.v", "PropPaint.v", "PropPart.v", "PropPresent.v", "PropRoles.v", "PropSizes.v", "PropSmall.v", "PropStates.v", "PropTagged.v", "PropTwAnnot.v", "PropTwAttr.v", "PropTwDoc.v", "PropTwFiles.v", "PropTwFonts.v", "PropTwForms.v", "PropTwGraphics.v", "PropTwXObj.v", "PropType3.v"], "counterexample": null}
{"id": "R11", "definition": "ModelTwDoc.v: Outline_entries", "edit": "last item written as the first", "claim": "C91", "refuted_statement": ["C91"], "first_failures": ["ProofTwDoc.Outline_good"], "blocked": ["PropActions.v", "PropAppear.v", "PropAssembled.v", "PropAttrs.v", "PropBack.v", "PropColors.v", "PropDoc.v", "PropExtract.v", "PropFaces.v", "PropFields.v", "PropForm.v", "PropFunctions.v", "PropGlyphs.v", "PropImages.v", "PropInfo.v", "PropMarked.v", "PropMarks.v", "PropMerged.v", "PropNames.v", "PropNav.v", "PropPages.v", "PropPaint.v", "PropPart.v", "PropPresent.v", "PropSizes.v", "PropStates.v", "PropTagged.v", "PropTwDoc.v", "PropType3.v"], "counterexample": null}
{"id": "R12", "definition": "ModelTwDoc.v: OutlineItem_entries", "edit": "prev and next confused", "claim": "C91", "refuted_statement": ["C91"], "first_failures": ["ProofTwDoc.OutlineItem_good"], "blocked": ["PropActions.v", "PropAppear.v", "PropAssembled.v", "PropAttrs.v", "PropBack.v", "PropColors.v", "PropDoc.v", "PropExtract.v", "PropFaces.v", "PropFields.v", "PropForm.v", "PropFunctions.v", "PropGlyphs.v", "PropImages.v", "PropInfo.v", "PropMarked.v", "PropMarks.v", "PropMerged.v", "PropNames.v", "PropNav.v", "PropPages.v", "PropPaint.v", "PropPart.v", "PropPresent.v", "PropSizes.v", "PropStates.v", "PropTagged.v", "PropTwDoc.v", "PropType3.v"], "counterexample": null}
{"id": "R13", "definition": "ModelTwGraphics.v: ExtGraphicsState_entries", "edit": "name of the soft mask as a string", "claim": "C94", "refuted_statement": ["C94"], "first_failures": ["ProofTwGraphics.ExtGraphicsState_good"], "blocked": ["PropActions.v", "PropAppear.v", "PropAssembled.v", "PropAttrs.v", "PropBack.v", "PropColors.v", "PropDoc.v", "PropExtract.v", "PropFaces.v", "PropFields.v", "PropForm.v", "PropFunctions.v", "PropGlyphs.v", "PropImages.v", "PropInfo.v", "PropMarked.v", "PropMarks.v", "PropMerged.v", "PropNames.v", "PropNav.v", "PropPages.v", "PropPaint.v", "PropPart.v", "PropPresent.v", "PropSizes.v", "PropStates.v", "PropTagged.v", "PropTwAnnot.v", "PropTwAttr.v", "PropTwDoc.v", "PropTwFonts.v", "PropTwForms.v", "PropTwGraphics.v", "PropTwXObj.v", "PropType3.v"], "counterexample": null}
{"id": "R14", "definition": "ModelTwGraphics.v: FunctionShading_entries", "edit": "extend flags swapped", "claim": "C94", "refuted_statement": ["C94"], "first_failures": ["ProofTwGraphics.FunctionShading_good"], "blocked": ["PropActions.v", "PropAppear.v", "PropAssembled.v", "PropAttrs.v", "PropBack.v", "PropColors.v", "PropDoc.v", "PropExtract.v", "PropFaces.v", "PropFields.v", "PropForm.v", "PropFunctions.v", "PropGlyphs.v", "PropImages.v", "PropInfo.v", "PropMarked.v", "PropMarks.v", "PropMerged.v", "PropNames.v", "PropNav.v", "PropPages.v", "PropPaint.v", "PropPart.v", "PropPresent.v", "PropSizes.v", "PropStates.v", "PropTagged.v", "PropTwAnnot.v", "PropTwAttr.v", "PropTwDoc.v", "PropTwFonts.v", "PropTwForms.v", "PropTwGraphics.v", "PropTwXObj.v", "PropType3.v"], "counterexample": null}
{"id": "R15", "definition": "ModelSwap.v: replace_chunk", "edit": "replacing the chunk forgets the trailer", "claim": "C97: the trailer stays with the Pdf", "refuted_statement": ["C97"], "first_failures": ["ProofSwap.swap_spec"], "blocked": ["PropSwap.v"], "counterexample": null}
{"id": "R16", "definition": "ModelSwap.v: checked_marker", "edit": "set_binary_marker indexes beyond the header", "claim": "C97: a Pdf that still has its header never panics in set_binary_marker", "refuted_statement": ["C97"], "first_failures": ["ProofSwap.swap_spec"], "blocked": ["PropSwap.v"], "counterexample": null}
{"id": "R17", "definition": "ModelSwap.v: checked_version", "edit": "bounds check of the minor version dropped", "claim": "C97: setting the version of a fresh chunk panics if it is too short", "refuted_statement": ["C97"], "first_failures": ["ProofSwap.swap_spec"], "blocked": ["PropSwap.v"], "counterexample": null}
{"id": "R18", "definition": "ModelPdf.v: finish_stream_inner", "edit": "field width from a wrong offset", "claim": "C28_width", "refuted_statement": ["C28"], "first_failures": ["ProofFile2.finish_stream_form", "Conform.test_xref_stream"], "blocked": ["PropActions.v", "PropAppear.v", "PropAssembled.v", "PropAttrs.v", "PropBack.v", "PropColors.v", "PropCrash.v", "PropDoc.v", "PropExtract.v", "PropFaces.v", "PropFields.v", "PropForm.v", "PropFunctions.v", "PropGlyphs.v", "PropImages.v", "PropInfo.v", "PropLarge.v", "PropLeak.v", "PropMarked.v", "PropMarks.v", "PropMerge.v", "PropMerged.v", "PropNames.v", "PropNav.v", "PropOps.v", "PropOverflow.v", "PropPages.v", "PropPaint.v", "PropPart.v", "PropPdf.v", "PropPdf2.v", "PropPresent.v", "PropSame.v", "PropSerial.v", "PropSizes.v", "PropStates.v", "PropSwap.v", "PropTagged.v", "PropType3.v"], "counterexample": null}
{"id": "R19", "definition": "ModelPdf.v: pdf_step", "edit": "renumbering into a Pdf ignores its pretty setting", "claim": "C98: same file however the objects got there", "refuted_statement": ["C98"], "first_failures": ["ProofPdf.step_spec"], "blocked": ["PropActions.v", "PropAppear.v", "PropAssembled.v", "PropAttrs.v", "PropBack.v", "PropColors.v", "PropCrash.v", "PropDoc.v", "PropExtract.v", "PropFaces.v", "PropFields.v", "PropForm.v", "PropFunctions.v", "PropGlyphs.v", "PropImages.v", "PropInfo.v", "PropLarge.v", "PropLeak.v", "PropMarked.v", "PropMarks.v", "PropMerge.v", "PropMerged.v", "PropNames.v", "PropNav.v", "PropOps.v", "PropOverflow.v", "PropPages.v", "PropPaint.v", "PropPart.v", "PropPdf.v", "PropPdf2.v", "PropPresent.v", "PropSame.v", "PropSerial.v", "PropSizes.v", "PropStates.v", "PropSwap.v", "PropTagged.v", "PropType3.v"], "counterexample": null}
{"id": "V01", "definition": "ModelObject.v: endobj", "edit": "a space instead of a line feed before endobj", "claim": "C103: endobj is preceded by an end-of-line marker", "refuted_statement": ["C103"], "first_failures": ["ProofObj.endobj_inner", "Conform.test_xref_free_list_short"], "blocked": ["PropActions.v", "PropApi.v", "PropAppear.v", "PropArchive.v", "PropAssembled.v", "PropAttrs.v", "PropBack.v", "PropChunk.v", "PropCmap.v", "PropColor.v", "PropColors.v", "PropContent.v", "PropCost.v", "PropCrash.v", "PropCut.v", "PropDefaults.v", "PropDoc.v", "PropEnums.v", "PropExtract.v", "PropFaces.v", "PropFields.v", "PropFontDesc.v", "PropForm.v", "PropFunctions.v", "PropGlyphs.v", "PropImages.v", "PropInfo.v", "PropKeyword.v", "PropLarge.v", "PropLeak.v", "PropLimits.v", "PropLimits2.v", "PropMarked.v", "PropMarks.v", "PropMerge.v", "PropMerged.v", "PropNames.v", "PropNav.v", "PropOps.v", "PropOverflow.v", "PropPages.v", "PropPaint.v", "PropPart.v", "PropPdf.v", "PropPdf2.v", "PropPresent.v", "PropPrim.v", "PropPs.v", "PropRenum.v", "PropRoles.v", "PropSame.v", "PropSearch.v", "PropSerial.v", "PropSizes.v", "PropSmall.v", "PropStates.v", "PropSwap.v", "PropTagged.v", "PropTree.v", "PropTwAnnot.v", "PropTwAttr.v", "PropTwDoc.v", "PropTwFiles.v", "PropTwFonts.v", "PropTwForms.v", "PropTwGraphics.v", "PropTwXObj.v", "PropType3.v"], "counterexample": null}
{"id": "V02", "definition": "ModelPdf.v: finish_trailer", "edit": "an empty line after the end-of-file marker", "claim": "C103: nothing but one end-of-line marker follows", "refuted_statement": ["C103"], "first_failures": ["ProofFile2.finish_form", "Conform.test_streams"], "blocked": ["PropActions.v", "PropAppear.v", "PropArchive.v", "PropAssembled.v", "PropAttrs.v", "PropBack.v", "PropColors.v", "PropCost.v", "PropCrash.v", "PropCut.v", "PropDoc.v", "PropExtract.v", "PropFaces.v", "PropFields.v", "PropForm.v", "PropFunctions.v", "PropGlyphs.v", "PropImages.v", "PropInfo.v", "PropKeyword.v", "PropLarge.v", "PropLeak.v", "PropMarked.v", "PropMarks.v", "PropMerge.v", "PropMerged.v", "PropNames.v", "PropNav.v", "PropOps.v", "PropOverflow.v", "PropPages.v", "PropPaint.v", "PropPart.v", "PropPdf.v", "PropPdf2.v", "PropPresent.v", "PropSame.v", "PropSearch.v", "PropSerial.v", "PropSizes.v", "PropStates.v", "PropSwap.v", "PropTagged.v", "PropType3.v"], "counterexample": null}
{"id": "V03", "definition": "ModelPdf.v: plain_prologue", "edit": "two spaces in the header of the subsection", "claim": "C103: one space between the numbers", "refuted_statement": ["C103"], "first_failures": ["ProofFile2.finish_form", "Conform.test_streams"], "blocked": ["PropActions.v", "PropAppear.v", "PropArchive.v", "PropAssembled.v", "PropAttrs.v", "PropBack.v", "PropColors.v", "PropCost.v", "PropCrash.v", "PropCut.v", "PropDoc.v", "PropExtract.v", "PropFaces.v", "PropFields.v", "PropForm.v", "PropFunctions.v", "PropGlyphs.v", "PropImages.v", "PropInfo.v", "PropKeyword.v", "PropLarge.v", "PropLeak.v", "PropMarked.v", "PropMarks.v", "PropMerge.v", "PropMerged.v", "PropNames.v", "PropNav.v", "PropOps.v", "PropOverflow.v", "PropPages.v", "PropPaint.v", "PropPart.v", "PropPdf.v", "PropPdf2.v", "PropPresent.v", "PropSame.v", "PropSearch.v", "PropSerial.v", "PropSizes.v", "PropStates.v", "PropSwap.v", "PropTagged.v", "PropType3.v"], "counterexample": null}
{"id": "V04", "definition": "ModelPdf.v: pdf_header", "edit": "one byte of the default marker is not above 127", "claim": "C103_case: the default marker is high", "refuted_statement": ["C103"], "first_failures": ["ProofPdf.run_spec", "Conform.test_streams"], "blocked": ["PropActions.v", "PropAppear.v", "PropArchive.v", "PropAssembled.v", "PropAttrs.v", "PropBack.v", "PropColors.v", "PropCost.v", "PropCrash.v", "PropCut.v", "PropDoc.v", "PropExtract.v", "PropFaces.v", "PropFields.v", "PropForm.v", "PropFunctions.v", "PropGlyphs.v", "PropImages.v", "PropInfo.v", "PropKeyword.v", "PropLarge.v", "PropLeak.v", "PropMarked.v", "PropMarks.v", "PropMerge.v", "PropMerged.v", "PropNames.v", "PropNav.v", "PropOps.v", "PropOverflow.v", "PropPages.v", "PropPaint.v", "PropPart.v", "PropPdf.v", "PropPdf2.v", "PropPresent.v", "PropSame.v", "PropSearch.v", "PropSerial.v", "PropSizes.v", "PropStates.v", "PropSwap.v", "PropTagged.v", "PropType3.v"], "counterexample": null}
{"id": "V05", "definition": "ModelPdf.v: trailer_entries", "edit": "an Encrypt entry in the trailer", "claim": "C103: no Encrypt", "refuted_statement": ["C103"], "first_failures": ["ProofFile3.trailer_lookup", "Conform.test_streams"], "blocked": ["PropActions.v", "PropAppear.v", "PropArchive.v", "PropAssembled.v", "PropAttrs.v", "PropBack.v", "PropColors.v", "PropCost.v", "PropCrash.v", "PropCut.v", "PropDoc.v", "PropExtract.v", "PropFaces.v", "PropFields.v", "PropForm.v", "PropFunctions.v", "PropGlyphs.v", "PropImages.v", "PropInfo.v", "PropKeyword.v", "PropLarge.v", "PropLeak.v", "PropMarked.v", "PropMarks.v", "PropMerge.v", "PropMerged.v", "PropNames.v", "PropNav.v", "PropOps.v", "PropOverflow.v", "PropPages.v", "PropPaint.v", "PropPart.v", "PropPdf.v", "PropPdf2.v", "PropPresent.v", "PropSame.v", "PropSearch.v", "PropSerial.v", "PropSizes.v", "PropStates.v", "PropSwap.v", "PropTagged.v", "PropType3.v"], "counterexample": null}
{"id": "W01", "definition": "ModelChunk.v: chunk_merge_limits", "edit": "merge_limits replaces the limits of the chunk", "claim": "C104: the limits of the document bound the objects written before", "refuted_statement": ["C104"], "first_failures": ["ProofLimits3.run_bounds"], "blocked": ["PropActions.v", "PropAppear.v", "PropArchive.v", "PropAssembled.v", "PropAttrs.v", "PropBack.v", "PropChunk.v", "PropColor.v", "PropColors.v", "PropCost.v", "PropCrash.v", "PropCut.v", "PropDoc.v", "PropEnums.v", "PropExtract.v", "PropFaces.v", "PropFields.v", "PropFontDesc.v", "PropForm.v", "PropFunctions.v", "PropGlyphs.v", "PropImages.v", "PropInfo.v", "PropKeyword.v", "PropLarge.v", "PropLeak.v", "PropLimits.v", "PropLimits2.v", "PropMarked.v", "PropMarks.v", "PropMerge.v", "PropMerged.v", "PropNames.v", "PropNav.v", "PropOps.v", "PropOverflow.v", "PropPages.v", "PropPaint.v", "PropPart.v", "PropPdf.v", "PropPdf2.v", "PropPresent.v", "PropRenum.v", "PropRoles.v", "PropSame.v", "PropSearch.v", "PropSerial.v", "PropSizes.v", "PropStates.v", "PropSwap.v", "PropTagged.v", "PropTwAnnot.v", "PropTwAttr.v", "PropTwDoc.v", "PropTwFiles.v", "PropTwFonts.v", "PropTwForms.v", "PropTwGraphics.v", "PropTwXObj.v", "PropType3.v", "PropWithin.v"], "counterexample": null}
{"id": "W02", "definition": "ModelChunk.v: chunk_renumber_into", "edit": "renumber_into forgets the limits of the source", "claim": "C104: objects that came through renumbering, and limits merged there, are bounded", "refuted_statement": ["C104"], "first_failures": ["ProofChunk.renumber_holds"], "blocked": ["PropActions.v", "PropAppear.v", "PropArchive.v", "PropAssembled.v", "PropAttrs.v", "PropBack.v", "PropChunk.v", "PropCmap.v", "PropColor.v", "PropColors.v", "PropContent.v", "PropCost.v", "PropCrash.v", "PropCut.v", "PropDoc.v", "PropEnums.v", "PropExtract.v", "PropFaces.v", "PropFields.v", "PropFontDesc.v", "PropForm.v", "PropFunctions.v", "PropGlyphs.v", "PropImages.v", "PropInfo.v", "PropKeyword.v", "PropLarge.v", "PropLeak.v", "PropLimits.v", "PropLimits2.v", "PropMarked.v", "PropMarks.v", "PropMerge.v", "PropMerged.v", "PropNames.v", "PropNav.v", "PropOps.v", "PropOverflow.v", "PropPages.v", "PropPaint.v", "PropPart.v", "PropPdf.v", "PropPdf2.v", "PropPresent.v", "PropPs.v", "PropRenum.v", "PropRoles.v", "PropSame.v", "PropSearch.v", "PropSerial.v", "PropSizes.v", "PropStates.v", "PropSwap.v", "PropTagged.v", "PropTwAnnot.v", "PropTwAttr.v", "PropTwDoc.v", "PropTwFiles.v", "PropTwFonts.v", "PropTwForms.v", "PropTwGraphics.v", "PropTwXObj.v", "PropType3.v", "PropWithin.v"], "counterexample": null}
{"id": "W03", "definition": "ModelContent.v: content_finish", "edit": "finish of a content gives fresh limits when it drops the newline", "claim": "C104: the limits of a content bound its operands", "refuted_statement": ["C104"], "first_failures": ["PropContent.C36_finish_keeps_limits"], "blocked": ["PropActions.v", "PropAppear.v", "PropAssembled.v", "PropAttrs.v", "PropBack.v", "PropColors.v", "PropContent.v", "PropExtract.v", "PropFaces.v", "PropFields.v", "PropForm.v", "PropFunctions.v", "PropGlyphs.v", "PropImages.v", "PropInfo.v", "PropMarked.v", "PropMarks.v", "PropMerged.v", "PropNames.v", "PropNav.v", "PropOps.v", "PropPages.v", "PropPaint.v", "PropPresent.v", "PropSearch.v", "PropSizes.v", "PropStates.v", "PropTagged.v", "PropType3.v", "PropWithin.v"], "counterexample": null}
{"id": "W04", "definition": "ModelObject.v: stream_drop", "edit": "the number of entries of a stream dictionary is not registered", "claim": "C104: dictionaries have at most the reported number of entries", "refuted_statement": ["C104"], "first_failures": ["ProofLimits3.stream_limits", "Conform.test_chunk_limits"], "blocked": ["PropActions.v", "PropAppear.v", "PropArchive.v", "PropAssembled.v", "PropAttrs.v", "PropBack.v", "PropChunk.v", "PropColor.v", "PropColors.v", "PropCost.v", "PropCrash.v", "PropCut.v", "PropDoc.v", "PropEnums.v", "PropExtract.v", "PropFaces.v", "PropFields.v", "PropFontDesc.v", "PropForm.v", "PropFunctions.v", "PropGlyphs.v", "PropImages.v", "PropInfo.v", "PropKeyword.v", "PropLarge.v", "PropLeak.v", "PropLimits.v", "PropLimits2.v", "PropMarked.v", "PropMarks.v", "PropMerge.v", "PropMerged.v", "PropNames.v", "PropNav.v", "PropOps.v", "PropOverflow.v", "PropPages.v", "PropPaint.v", "PropPart.v", "PropPdf.v", "PropPdf2.v", "PropPresent.v", "PropRenum.v", "PropRoles.v", "PropSame.v", "PropSearch.v", "PropSerial.v", "PropSizes.v", "PropStates.v", "PropSwap.v", "PropTagged.v", "PropTwAnnot.v", "PropTwAttr.v", "PropTwDoc.v", "PropTwFiles.v", "PropTwFonts.v", "PropTwForms.v", "PropTwGraphics.v", "PropTwXObj.v", "PropType3.v", "PropWithin.v"], "counterexample": null}
{"id": "X01", "definition": "ModelObject.v: to_quad_points", "edit": "the corners are given in clockwise order", "claim": "C105: counterclockwise if the first corner is the lower left one", "refuted_statement": ["C105_counterclockwise"], "first_failures": ["PropCorners.corners_points"], "blocked": ["PropCorners.v"], "counterexample": null}
{"id": "X02", "definition": "ModelObject.v: to_quad_points", "edit": "the last two corners are swapped, as most viewers expect", "claim": "C105: the quadrilateral covers exactly the rectangle", "refuted_statement": ["C105_region", "C105_document"], "first_failures": ["PropCorners.corners_points"], "blocked": ["PropCorners.v"], "counterexample": null}
{"id": "X03", "definition": "ModelRoles.v: compatibility_1_7", "edit": "Strong is mapped to Quote", "claim": "C42: the documented stand-ins", "refuted_statement": ["C42_role_1_7"], "first_failures": ["PropRoles.C42_role_1_7"], "blocked": ["PropActions.v", "PropAppear.v", "PropAssembled.v", "PropAttrs.v", "PropBack.v", "PropColors.v", "PropCorners.v", "PropDoc.v", "PropExtract.v", "PropFaces.v", "PropFields.v", "PropFontDesc.v", "PropForm.v", "PropFunctions.v", "PropGlyphs.v", "PropImages.v", "PropInfo.v", "PropMarked.v", "PropMarks.v", "PropMerged.v", "PropNames.v", "PropNav.v", "PropPages.v", "PropPaint.v", "PropPart.v", "PropPresent.v", "PropRoles.v", "PropSearch.v", "PropSizes.v", "PropStates.v", "PropTagged.v", "PropTwAnnot.v", "PropTwAttr.v", "PropTwDoc.v", "PropTwFiles.v", "PropTwFonts.v", "PropTwForms.v", "PropTwGraphics.v", "PropTwXObj.v", "PropType3.v"], "counterexample": null}
{"id": "X04", "definition": "ModelRoles.v: into_pdf_2_0", "edit": "Note has no counterpart in PDF 2.0", "claim": "C42: the documented replacements", "refuted_statement": ["C42_replaced_in_2_0"], "first_failures": ["PropRoles.C42_replaced_in_2_0"], "blocked": ["PropActions.v", "PropAppear.v", "PropAssembled.v", "PropAttrs.v", "PropBack.v", "PropColors.v", "PropCorners.v", "PropDoc.v", "PropExtract.v", "PropFaces.v", "PropFields.v", "PropFontDesc.v", "PropForm.v", "PropFunctions.v", "PropGlyphs.v", "PropImages.v", "PropInfo.v", "PropMarked.v", "PropMarks.v", "PropMerged.v", "PropNames.v", "PropNav.v", "PropPages.v", "PropPaint.v", "PropPart.v", "PropPresent.v", "PropRoles.v", "PropSearch.v", "PropSizes.v", "PropStates.v", "PropTagged.v", "PropTwAnnot.v", "PropTwAttr.v", "PropTwDoc.v", "PropTwFiles.v", "PropTwFonts.v", "PropTwForms.v", "PropTwGraphics.v", "PropTwXObj.v", "PropType3.v"], "counterexample": null}
{"id": "X05", "definition": "ModelRoles.v: compat_role", "edit": "role() of a mapped role is P", "claim": "C42: role() gives the stand-in", "refuted_statement": ["C42_role_1_7"], "first_failures": ["PropRoles.C42_role_1_7"], "blocked": ["PropActions.v", "PropAppear.v", "PropAssembled.v", "PropAttrs.v", "PropBack.v", "PropColors.v", "PropCorners.v", "PropDoc.v", "PropExtract.v", "PropFaces.v", "PropFields.v", "PropFontDesc.v", "PropForm.v", "PropFunctions.v", "PropGlyphs.v", "PropImages.v", "PropInfo.v", "PropMarked.v", "PropMarks.v", "PropMerged.v", "PropNames.v", "PropNav.v", "PropPages.v", "PropPaint.v", "PropPart.v", "PropPresent.v", "PropRoles.v", "PropSearch.v", "PropSizes.v", "PropStates.v", "PropTagged.v", "PropTwAnnot.v", "PropTwAttr.v", "PropTwDoc.v", "PropTwFiles.v", "PropTwFonts.v", "PropTwForms.v", "PropTwGraphics.v", "PropTwXObj.v", "PropType3.v"], "counterexample": null}
{"id": "X06", "definition": "ModelFloat.v: f32_1e12", "edit": "the bound for writing reals with a period is 10^13", "claim": "C39: constants keep their types exactly below 10^12", "refuted_statement": ["C39_bound"], "first_failures": ["ProofFloat2.decimal_good"], "blocked": ["PropActions.v", "PropApi.v", "PropAppear.v", "PropArchive.v", "PropAssembled.v", "PropAttrs.v", "PropBack.v", "PropChunk.v", "PropCmap.v", "PropColor.v", "PropColors.v", "PropContent.v", "PropCorners.v", "PropCost.v", "PropCost2.v", "PropCrash.v", "PropCut.v", "PropDefaults.v", "PropDoc.v", "PropEnums.v", "PropExtract.v", "PropFaces.v", "PropFields.v", "PropFontDesc.v", "PropForm.v", "PropFunctions.v", "PropGlyphs.v", "PropImages.v", "PropInfo.v", "PropKeyword.v", "PropKeyword2.v", "PropLarge.v", "PropLeak.v", "PropLimits.v", "PropLimits2.v", "PropMarked.v", "PropMarks.v", "PropMerge.v", "PropMerge2.v", "PropMerged.v", "PropNames.v", "PropNav.v", "PropOps.v", "PropOverflow.v", "PropPages.v", "PropPaint.v", "PropPart.v", "PropPdf.v", "PropPdf2.v", "PropPresent.v", "PropPrim.v", "PropPs.v", "PropPs2.v", "PropRenum.v", "PropRoles.v", "PropSame.v", "PropSearch.v", "PropSepar.v", "PropSepar2.v", "PropSerial.v", "PropSizes.v", "PropSmall.v", "PropStates.v", "PropSwap.v", "PropTagged.v", "PropTree.v", "PropTwAnnot.v", "PropTwAttr.v", "PropTwDoc.v", "PropTwFiles.v", "PropTwFonts.v", "PropTwForms.v", "PropTwGraphics.v", "PropTwXObj.v", "PropType3.v", "PropWithin.v"], "counterexample": null}
{"id": "X07", "definition": "ModelMerge.v: pdf_renumber_into_pdf", "edit": "the catalog and file id of the source are taken over", "claim": "C78: the trailer is that of the target", "refuted_statement": ["C78_copied_documents"], "first_failures": ["PropMerge.C78_copy_is_a_call"], "blocked": ["PropMerge.v", "PropMerge2.v", "PropWithin.v"], "counterexample": null}
{"id": "G1", "definition": "ModelContent.v: content_finish", "edit": "finish strips two bytes (as for a CR LF line end)", "claim": "C106: a finished content holds everything that was written, up to one newline", "refuted_statement": ["C106_contents"], "first_failures": ["PropGrow.C106_contents"], "blocked": [], "counterexample": null}
{"id": "G2", "definition": "ModelPdf.v: finish", "edit": "finish drops the empty line that ends the body", "claim": "C106: what is in the document stays when it is finished", "refuted_statement": ["C106_finish"], "first_failures": ["ProofFile2.finish_form"], "blocked": [], "counterexample": null}
{"id": "G3", "definition": "ModelPdf.v: set_version", "edit": "the version is written with a new binary marker and one line feed too many, over the byte at 16", "claim": "C106: changing the header changes nothing after the first 16 bytes", "refuted_statement": ["C106_documents"], "first_failures": ["ProofPdf.version_holds"], "blocked": [], "counterexample": null}
{"id": "G4", "definition": "ModelChunk.v: chunk_extend", "edit": "the offsets of the other chunk come first", "claim": "C106: the list of recorded offsets only grows at its end", "refuted_statement": ["C106_chunks"], "first_failures": ["ProofChunk.extend_holds"], "blocked": [], "counterexample": null}
{"id": "G5", "definition": "ModelCrash.v: unwind", "edit": "an array that is left by a panic loses the last byte of its last element", "claim": "C106: unwinding keeps what was written", "refuted_statement": ["C106_unwinding"], "first_failures": ["PropGrow.C106_unwinding"], "blocked": [], "counterexample": null}
{"id": "H1", "definition": "ModelChunk.v: chunk_indirect", "edit": "objects are separated by an empty line, except before the first one of the chunk", "claim": "C107: a part written separately is what the same calls add in place", "refuted_statement": ["C107_chunks"], "first_failures": ["ProofChunk.object_holds"], "blocked": [], "counterexample": null}
{"id": "H2", "definition": "ModelChunk.v: chunk_extend", "edit": "extend takes over the settings of the other chunk", "claim": "C107: further calls after extend use the settings of the chunk", "refuted_statement": ["C107_chunks"], "first_failures": ["ProofChunk.run_holds"], "blocked": [], "counterexample": null}
{"id": "H3", "definition": "ModelCrash.v: caught_renumber_loop", "edit": "the offset recorded for a renumbered object is computed from the source", "claim": "C107_leaked_chunks", "refuted_statement": ["C107_leaked_chunks"], "first_failures": ["PropGrow.g_caught_renumber"], "blocked": [], "counterexample": null}
{"id": "K1", "definition": "ModelTwDoc.v: Page_entries", "edit": "rotate writes the key of resources", "claim": "C108: no dictionary has a key twice", "refuted_statement": ["C108_Page"], "first_failures": ["PropOnce.good_Page"], "blocked": [], "counterexample": null}
{"id": "K2", "definition": "ModelTwXObj.v: ImageXObject_entries", "edit": "intent writes the key the stream has written", "claim": "C108: no dictionary has a key twice", "refuted_statement": ["C108_ImageXObject"], "first_failures": ["PropOnce.good_ImageXObject"], "blocked": [], "counterexample": null}
{"id": "K3", "definition": "ModelTwDoc.v: Catalog_header", "edit": "the constructor writes an empty language", "claim": "C108: no dictionary has a key twice", "refuted_statement": ["C108_Catalog"], "first_failures": ["PropOnce.good_Catalog"], "blocked": [], "counterexample": null}
{"id": "K4", "definition": "ModelTw.v: stream_writer", "edit": "the constructor entries are written again when the writer is dropped", "claim": "C108: no dictionary has a key twice", "refuted_statement": ["C108_EmbeddedFile"], "first_failures": ["PropOnce.stream_once"], "blocked": [], "counterexample": null}
{"id": "K5", "definition": "ModelTwForms.v: Field_entries", "edit": "the top index selects its entry, too", "claim": "C108: no dictionary has a key twice", "refuted_statement": ["C108_Field"], "first_failures": ["PropOnce.good_Field"], "blocked": [], "counterexample": null}
{"id": "M1", "definition": "ModelCrash.v: caught_patch_loop", "edit": "the byte after a comment is looked at again, if the closure may panic", "claim": "C31: a closure that may panic gives the same as one that agrees with it", "refuted_statement": ["C31_panicking_closure"], "first_failures": ["PropInto.agrees_renumber"], "blocked": [], "counterexample": null}
{"id": "M2", "definition": "ModelCrash.v: caught_renumber_loop", "edit": "renumbering stops at a damaged object", "claim": "C31, C96: every whole object is copied, also after a damaged one", "refuted_statement": ["C31_panicking_closure"], "first_failures": ["PropGrow.g_caught_renumber"], "blocked": [], "counterexample": null}
