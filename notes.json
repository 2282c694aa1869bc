{
 "C02": "ryu and core::fmt are modelled by their documented result (shortest decimal that rounds to the value), see DESIGN.md",
 "C03": "exact for all integral values with |v| < 2^31; C03_two_pow_31_refuted: 2^31 is written as 2147483647",
 "C04": "an equivalence: a number token iff the value is finite; C04_nonfinite_refuted has the witnesses",
 "C09": "with U+001B inside a text the segments cannot be recovered (C09_embedded_escape_refuted); otherwise exact",
 "C13": "fails for an empty name before a regular character in compact mode (refuted theorems), holds in every other case (C13_otherwise_separated)",
 "C22": "the under-reporting cases are refuted theorems, for text with an exact criterion (C22_text_exact, C22_text_lang_exact); everything else is not under-reported",
 "C23": "for files of at most 10^10 bytes; C23_large_file_refuted: with an object beyond that the file cannot be opened",
 "C28": "an equivalence (C28_free_list_iff) plus the width that is chosen; C28_free_list_refuted is a file with a wrong free list",
 "C29": "for ids below i32::MAX; C29_size_refuted: at id i32::MAX the size overflows",
 "C35": "the side condition is only about empty names in compact mode and non-finite numbers; C35_empty_name_refuted shows that it is needed",
 "C36": "also for content split over several streams",
 "C38": "for names without line breaks; C38_injection_refuted shows that it is needed",
 "C39": "for reals below 10^12 in absolute value; C39_large_real_refuted beyond",
 "C40": "C40_second_tint_refuted and C40_colorants_refuted: two misuses that are not rejected",
 "C42": "C42_into_pdf_2_0_refuted: RP is mapped to WP; C42_into_pdf_2_0 characterises the mapping for all roles",
 "C45": "for ids below i32::MAX; C45_last_id_refuted: next() overflows at i32::MAX",
 "C46": "C46_name_limits_refuted: the limits of a name tree are written as names, not strings",
 "C48": "C48_page_close_refuted: annot_page_close writes the key of another trigger; C48_distinct_keys covers all other pairs",
 "C50": "C50_opaque_refuted: Transition::opaque writes a number under /F",
 "C51": "C51_cymk_refuted: the order of the components",
 "C52": "two refuted keys, everything else holds",
 "C55": "C55_font_refuted: ExtGraphicsState::font writes a name",
 "C58": "the reader joins the streams of a Contents array with white space (PDF 2.0)",
 "C59": "closures that panic: C79; consistency is only asked of the ids that occur, within one renumbering",
 "C60": "the hypothesis alloc + number of distinct ids <= i32::MAX excludes the panic of Ref::bump; the hash map is modelled by an association list",
 "C64": "the reader takes the font from Tf only and does not enter form XObjects (stated in SpecExtract.v); see C102 for text in forms",
 "C85": "the last sentence is C85_separation_refuted: the typed methods of pages never write it; Transition::opaque is left out (C50 refuted its key)",
 "C93": "hypotheses: every object readable in the sense of C13 (body_readable), file of at most 10^10 bytes for a table; the last sentence is C93_marker_refuted",
 "C108": "an equivalence per writer, with the names of SpecOnce; four pairs of methods that set different things but write one key are named there and refuted (C108_*_refuted), as is an untyped entry with a key the writer sets (C108_raw_refuted)",
 "C31": "source and target with one setting (C31_renumber_mixed_settings for different ones); in place: C31_in_place, C31_documents; closures that may panic: C31_panicking_closure, C31_closure_returns"
}