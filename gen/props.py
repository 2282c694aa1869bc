import json
P=[]
def p(title,statement,quant,why,anchors):
    P.append(dict(id="C%02d"%(len(P)+1),title=title,statement=statement,quantifier=quant,why_tests_cant=why,anchors=anchors))
A=lambda *x:list(x)
p("Integers survive writing",
 "Writing any i32 as an object emits a PDF integer token (optional minus sign and decimal digits, no leading zeros) and a PDF reader that lexes it recovers exactly that integer.",
 "every i32 value","2^32 inputs, at every position in a file; tests sample a handful",
 A("src/buf.rs:46 Buf::push_int","src/object.rs:52 impl Sealed for i32"))
p("Finite reals survive writing",
 "Writing any finite f32 emits a PDF number without exponent (optional minus, digits, at most one decimal point) whose exact decimal value rounds, under IEEE nearest-even, back to the same f32 (with -0 read as 0).",
 "every finite f32 value","about 2^32 values spread over 77 decimal orders of magnitude; three different formatting paths chosen by range checks on binary floats",
 A("src/buf.rs:52 Buf::push_float","src/buf.rs:64 Buf::push_decimal"))
p("Integral reals are written exactly and without a decimal point",
 "An f32 with an integral value strictly between -2^31 and 2^31 is written as exactly that integer and is registered as an integer; every other finite f32 outside that case except 2^31 and -2^31 goes through the real-number path. At 2^31 the integer written is not the value of the float.",
 "every f32 value","the saturating cast and its rounding back only misbehave at one boundary value out of 2^32",
 A("src/buf.rs:52 Buf::push_float"))
p("Non-finite reals do not produce PDF numbers",
 "Writing any f32 should produce a PDF number token; it fails for NaN and the infinities, and only for those.",
 "every f32 value including NaN and infinities","a negative property over a whole value space: the exact set of failing inputs must be characterised",
 A("src/buf.rs:64 Buf::push_decimal"))
p("Byte strings survive writing",
 "Writing any byte string with Str yields a single PDF string token (literal or hexadecimal), and a PDF reader that lexes it recovers exactly the original bytes and stops exactly at its end, whatever follows.",
 "every byte sequence, every continuation","escaping and paren balancing interact over unbounded inputs",
 A("src/object.rs:98 impl Sealed for Str","src/object.rs:82 Str::is_balanced","src/buf.rs:86 Buf::push_hex","src/buf.rs:108 Buf::push_octal"))
p("Strings are written in visible ASCII only",
 "Every byte emitted for Str, TextStr, TextStrWithLang, Name and Date is in the printable ASCII range 0x20..0x7E, so such values never put control or non-ASCII bytes into the file; for names it is additionally never a space or a delimiter after the leading slash.",
 "every byte sequence / Unicode string / date","ranges over all inputs of unbounded length",
 A("src/object.rs:98 impl Sealed for Str","src/object.rs:335 impl Sealed for Name","src/object.rs:166 impl Sealed for TextStr"))
p("Names survive writing",
 "Writing any byte sequence as a Name yields one name token from which a PDF reader recovers exactly these bytes, provided what follows starts with a whitespace or delimiter byte or is the end.",
 "every byte sequence (including empty, NUL, '#', delimiters, non-ASCII)","all byte sequences of any length",
 A("src/object.rs:335 impl Sealed for Name","src/object.rs:360 is_regular_character"))
p("Unicode text strings survive writing",
 "Writing any Unicode string as TextStr yields a string token whose bytes, decoded as a PDF text string (UTF-16BE when it starts with the byte order mark, PDFDocEncoding otherwise), give back exactly the same sequence of Unicode scalar values.",
 "every finite sequence of Unicode scalar values","unbounded sequences over 1,112,064 scalar values, incl. surrogate pairs",
 A("src/object.rs:166 impl Sealed for TextStr","src/object.rs:297 write_utf16be_text_str_header"))
p("Language-tagged text strings survive writing",
 "Writing any list of (language, text) segments with TextStrWithLang yields a string token that decodes as UTF-16BE into the escape-delimited language tags followed by the texts; if no text contains U+001B and no language code byte is 0x1B, splitting at escapes recovers exactly the segments, and with an embedded U+001B anywhere it never does.",
 "every list of segments, any languages and texts","unbounded lists of unbounded strings",
 A("src/object.rs:253 impl Sealed for TextStrWithLang","src/object.rs:300 write_utf16be_lang_code","src/object.rs:226 LanguageIdentifier::str_to_code"))
p("Dates are well formed and keep their fields",
 "For every sequence of Date builder calls with any arguments the written date matches the PDF date grammar, every field is within its legal range, and a reader recovers exactly the clamped fields up to the first one that was not supplied, plus the UTC offset if all time fields are given.",
 "every u16/u8/i8 argument and every subset and order of builder calls","combinatorial space of optional fields times clamped ranges",
 A("src/object.rs:528 impl Date","src/object.rs:598 impl Sealed for Date"))
p("Nested objects survive writing",
 "Any finite tree of arrays, dictionaries and primitive objects written through the API is read back by a PDF parser as the same tree: same nesting, same element and entry order, same keys, same values; independent of pretty-printing, indentation, and of what precedes or follows (for non-empty names and finite reals).",
 "every object tree of any depth and width, both settings","unbounded recursive structure; token separation decided from the last byte in the buffer",
 A("src/object.rs:678 Obj::primitive","src/object.rs:765 Array","src/object.rs:927 Dict","src/chunk.rs:5 Settings"))
p("Pretty and compact output carry the same tokens",
 "For every object tree with non-empty names, the pretty and the compact output lex to the same token sequence, and the compact output is never longer. The constructors without settings (Chunk::new, Pdf::new, Content::new) give the pretty output, the others the output that the settings ask for.",
 "every object tree","relates two whole-program executions on all inputs",
 A("src/object.rs:786 Array::push","src/object.rs:962 Dict::insert","src/object.rs:678 Obj::primitive"))
p("Empty names are separated from the next token",
 "Every name, including the empty one, is kept apart from the token that follows. This fails in compact mode for an empty name followed by a number, boolean, null, reference or operator, and holds in every other case: a value, wherever in it the name is, is read back as written exactly if no such place is in it.",
 "every object tree / operation with empty names, both settings","needs the exact failing set over all trees, not one example",
 A("src/object.rs:678 Obj::primitive","src/object.rs:383 is_delimiter_character","src/content.rs Operation::drop"))
p("Deep nesting never corrupts output",
 "Dictionary nesting of any depth keeps output well formed: the indentation counter saturates instead of overflowing, never underflows on close, and indentation is at most 255 spaces.",
 "every nesting depth","depth is unbounded; the u8 counter only saturates beyond 127 levels",
 A("src/object.rs:935 writer!(Dict)","src/object.rs:1016 Drop for Dict"))
p("Stream objects carry exactly their data",
 "For any data bytes and any extra dictionary entries, the written stream object reads back as its dictionary with /Length first and equal to the data length, followed by exactly the data bytes between 'stream\\n' and '\\nendstream', then endobj - also when the data itself contains 'endstream' or 'endobj'.",
 "every byte string of data, every list of extra entries, both settings","arbitrary binary data that may imitate any PDF syntax",
 A("src/object.rs:1108 Stream","src/object.rs:1148 Drop for Stream","src/chunk.rs:235 Chunk::stream"))
p("Stream creation fails exactly on oversized data",
 "Starting a stream panics if and only if the data is longer than i32::MAX bytes; otherwise /Length is the exact length with no truncation.",
 "every data length","the boundary is at 2 GiB, impractical to test",
 A("src/object.rs:1121 Stream::start"))
p("Recorded offsets point at their objects",
 "After any history of writing indirect objects and streams, extending with other chunks, and renumbering into, each recorded reference's offset points at the bytes '<id> <gen> obj', in ascending order of offsets, and the object parsed there is the one that was written.",
 "every sequence of chunk operations of any length","histories of operations; offset shifts accumulate",
 A("src/chunk.rs:184 Chunk::indirect","src/chunk.rs:87 Chunk::extend","src/renumber.rs:6 renumber"))
p("Extending a chunk is concatenation",
 "chunk.extend(other) leaves the existing bytes and offsets unchanged, appends other's bytes verbatim, shifts each appended offset by the old length, appends refs in order, and takes the field-wise maximum of limits; extending is associative and the empty chunk is neutral.",
 "all pairs/triples of chunks","algebraic law over all chunk contents",
 A("src/chunk.rs:87 Chunk::extend","src/buf.rs:80 Buf::extend_buf"))
p("A chunk reads back as its sequence of objects",
 "The bytes of any chunk built from indirect objects and streams parse, from the first byte to the last, as exactly the sequence of (id, object) pairs written, in order, with nothing left over.",
 "every sequence of indirect objects and streams, both settings","unbounded sequences with arbitrary binary stream data",
 A("src/chunk.rs:184 Chunk::indirect","src/object.rs:663 Obj::indirect"))
p("Limits bound everything written",
 "The limits reported after writing are exactly the maxima over everything written: absolute integers, absolute reals, name lengths, string lengths, array lengths, and dictionary entry counts. (Integers: except i32::MIN; strings: bytes for Str, bytes in UTF-8 for text, with two or four bytes for a language code and two for its delimiters.)",
 "every object tree / sequence of objects","a maximum over unbounded structures",
 A("src/buf.rs:150 Limits","src/buf.rs:205 Limits::register_int"))
p("Limits merging is a lattice join",
 "Merging limits is commutative, associative, idempotent, has the empty limits as neutral element, and the result is the least limits above both; so the order of merging chunks does not matter.",
 "all limits values","algebraic laws over all values including float fields",
 A("src/buf.rs:233 Limits::merge"))
p("Limits never under-report",
 "The reported int and string limits are at least the size of every integer and every string in the output. This fails for i32::MIN (absolute value overflows) and for non-ASCII text strings (the UTF-8 length is registered; the UTF-16 string written is longer exactly unless the text has at least two more characters from U+0800 to U+FFFF than ASCII characters and characters of language tags) and for dates (not registered at all).",
 "every object tree","exact failing set over all inputs",
 A("src/buf.rs:205 Limits::register_int","src/object.rs:169 TextStr::write","src/object.rs:256 TextStrWithLang::write","src/object.rs:601 Date::write"))
p("The cross-reference table locates every object",
 "In a finished file, a reader that follows startxref, parses the table and looks up any written id gets exactly that object's byte offset with generation 0, and ids never written are marked free; there are exactly 1+max(id) entries of 20 bytes each (offsets below 10^10).",
 "every set of object ids and offsets, in any write order","all id sets of any size, gaps anywhere",
 A("src/lib.rs:313 Pdf::finish","src/lib.rs:443 write_offsets","src/lib.rs:585 PlainXRefWriter"))
p("The free list is a correct linked list",
 "Following the free entries from object 0 visits every unused id below the table size exactly once, in ascending order, and ends by pointing back to 0; entry 0 has generation 65535, the others 0.",
 "every set of used ids","combinatorial: every subset of ids",
 A("src/lib.rs:443 write_offsets"))
p("Duplicate ids are rejected, exactly",
 "finish and finish_with_xref_stream panic if and only if some id was written twice (or, with a stream, equals the xref stream id); otherwise they return a file.",
 "every list of written ids in any order","iff over all id multisets",
 A("src/lib.rs:443 write_offsets"))
p("Write order does not matter to the cross-reference table",
 "Any permutation of the list of recorded objects yields the same cross-reference entries.",
 "every permutation of every offset list","n! orders",
 A("src/lib.rs:443 write_offsets"))
p("The cross-reference stream locates every object",
 "With finish_with_xref_stream, decoding the stream data by its own /W array yields one entry per id below /Size; every written id (and the stream itself) gets its exact offset, type 1, generation 0. Occupied entries are always exact.",
 "every set of ids and offsets","field width varies with file size; unbounded ids",
 A("src/lib.rs:374 finish_with_xref_stream_inner","src/lib.rs:553 XRefStreamWriter::write","src/lib.rs:612 determine_field_width"))
p("Free entries in cross-reference streams fit their field",
 "Every free entry's next-free object number decodes to the same list as in the plain table. This holds when every id below /Size fits the offset field width, and fails otherwise, because the width is chosen from the file length only.",
 "every set of ids and file length","only fails for sparse ids at power-of-256 boundaries",
 A("src/lib.rs:612 determine_field_width","src/lib.rs:553 XRefStreamWriter::write"))
p("Trailer and startxref are right",
 "The finished file starts with the header, contains every written byte unchanged at its offset, its trailer dictionary parses to /Size = 1+max id and /Root, /Info, /ID exactly as set (last call wins), the number after startxref is the byte offset of 'xref' or of the xref stream object, and the file ends with %%EOF. (At the id i32::MAX the size overflows.)",
 "every history of Pdf calls, both settings","whole-file statement over all histories",
 A("src/lib.rs:313 Pdf::finish","src/lib.rs:428 finish_trailer","src/lib.rs:506 TrailerData::write_into_dict","src/lib.rs:289 Pdf::catalog"))
p("Header edits are local",
 "set_version and set_binary_marker change only their own bytes of the header at any time, never the length or any recorded offset; versions with a component of 10 or more leave that component unchanged; the last valid call wins, and header edits commute with all other operations.",
 "every interleaving of header edits with other calls, all u8 arguments","all histories and arguments",
 A("src/lib.rs:256 Pdf::set_binary_marker","src/lib.rs:266 Pdf::set_version"))
p("Renumbering maps exactly the references",
 "Renumbering any chunk written through the API yields byte for byte the chunk one would get by writing the same objects with every object id and every reference replaced through the mapping - reference-like text inside strings, names and stream data is untouched. Likewise, renumbering into a chunk or a document that has been written to gives what writing the renumbered objects there in place gives (bytes, positions, finished files). A closure that may panic gives the same result as any total one that agrees with it, if the call returns; and the call returns if the closure answers for every number that occurs in the source.",
 "every chunk of objects and streams with arbitrary strings/names/data, every mapping","byte-level scanner versus arbitrary contents",
 A("src/renumber.rs:6 renumber","src/renumber.rs:53 patch_object","src/renumber.rs:118 validate_ref"))
p("The renumbering closure is called in a fixed order",
 "For a stateful closure, the calls happen exactly once per object id and per reference occurrence, in file order: first the object's id, then its references in order.",
 "every chunk, every stateful closure","history property over all closures",
 A("src/renumber.rs:6 renumber","src/renumber.rs:53 patch_object","src/chunk.rs:127 Chunk::renumber"))
p("Renumbering composes",
 "Renumbering with the identity returns the same bytes and offsets (pretty source); renumbering with f and then g equals renumbering with their composition; an injective mapping can be undone; renumbering into a non-empty target equals renumbering separately and extending; renumbering two chunks that were put together equals renumbering the one and then the other with the same closure.",
 "every chunk and mapping","algebraic laws",
 A("src/chunk.rs:160 Chunk::renumber","src/chunk.rs:171 Chunk::renumber_into"))
p("Renumbering never panics on references",
 "For every byte content whatsoever, the scanner never slices out of bounds or backwards, terminates, and writes every byte outside replaced references unchanged.",
 "every byte sequence","robustness over all inputs, including malformed escapes and truncated strings",
 A("src/renumber.rs:30 extract_object","src/renumber.rs:53 patch_object"))
p("Content operations are separable",
 "Any sequence of content stream operations lexes back into exactly the operands and operator keywords in order, in both settings (non-empty names), so adjacent operations never run together. In compact output the operations are read back as asked for exactly if no empty name among the operands is directly followed by something that does not begin with a delimiter.",
 "every sequence of operations with any operands","unbounded sequences; separators depend on adjacent bytes",
 A("src/content.rs Operation","src/content.rs Content::op","src/content.rs Content::finish"))
p("Finishing content only strips a trailing newline",
 "Content::finish returns exactly what was written apart from one trailing newline, and the token sequence is unchanged. Operations written into one stream after others give the bytes of both as if written alone, with a line end between them (in compact mode sometimes nothing).",
 "every content stream","every possible last byte",
 A("src/content.rs Content::finish"))
p("Graphics state nesting depth is tracked",
 "state_nesting_depth() is, after any history of content operations, the number of save_state calls not yet undone by a restore_state call, where a restore at depth zero is ignored; every operation other than save/restore leaves it unchanged; so it is 0 after any balanced history, and q and Q tokens in the output match the calls.",
 "every sequence of save/restore/other operations","history property",
 A("src/content.rs:313 Content::save_state","src/content.rs:321 Content::restore_state","src/content.rs:330 Content::state_nesting_depth"))
p("ToUnicode CMaps decode to the mappings",
 "For any sequence of pair/pair_with_multiple calls, the bfchar sections have at most 100 entries each, each section's announced count equals its number of entries, and decoding all sections in order yields exactly the glyph-to-text mappings in call order, provided the CMap name, registry and ordering have no line breaks (with one, text of the caller's becomes part of the program).",
 "every sequence of mappings of any length, u8 and u16 glyph ids","flush every 100 entries over unbounded histories",
 A("src/font.rs UnicodeCmap::pair_with_multiple","src/font.rs UnicodeCmap::flush_range","src/font.rs UnicodeCmap::finish"))
p("PostScript calculator programs survive encoding",
 "Encoding any list of PostScript operations, nested to any depth, parses back to the same program; the constants keep their types exactly if all reals are below 10^12 in absolute value.",
 "every nested op list","unbounded recursion",
 A("src/functions.rs PostScriptOp::encode","src/functions.rs PostScriptOp::write_slice"))
p("Separation and DeviceN arrays have their elements in order",
 "For every sequence of calls on the Separation and DeviceN writers, the resulting array has exactly the required elements in the required order with no element written twice, and misuse (tint before alternate, alternate twice, ...) panics rather than producing a malformed array. Two misuses are not rejected: a second tint transform of a Separation makes a fifth element, and the Colorants of a DeviceN are always dictionaries, never the arrays of colour spaces.",
 "every call sequence","protocol state machine over all histories",
 A("src/color.rs Separation","src/color.rs DeviceN"))
p("Per-side attributes are written per the specification",
 "Writing Sides of any values gives a single value iff all sides are equal and otherwise a four element array in the order before, after, start, end; a reader recovers the sides.",
 "all side values","all combinations",
 A("src/attributes.rs Sides"))
p("Structure role mappings are faithful",
 "Converting a PDF 1.7 structure role to PDF 2.0 keeps the tag name whenever PDF 2.0 has a role of the same name. This fails for exactly the roles where the tables disagree. The other roles, of either version, become their documented stand-ins in the other version, or none.",
 "all roles","table exhaustiveness incl. parameterised headings",
 A("src/structure.rs StructRole::into_pdf_2_0","src/structure.rs StructRole2::compatibility_1_7"))
p("Distinct enum values have distinct PDF names",
 "For each public enum written as a name, distinct variants are written as distinct names, so the choice is recoverable by a reader.",
 "all variants of all such enums","injectivity over full tables incl. parameterised variants",
 A("src/*.rs to_name functions"))
p("Guarded setters fail exactly outside their range",
 "Each setter documented to panic does so if and only if its argument is outside the documented range.",
 "all argument values","boundary-exactness over whole numeric ranges including NaN",
 A("src/content.rs Content::set_flatness","src/content.rs Content::set_line_width","src/object.rs DecodeParms::colors","src/color.rs IccProfile::n","src/structure.rs Outline::count"))
p("Reference allocation never repeats",
 "Starting at any reference, n successive bump calls return n strictly increasing, pairwise distinct ids; a failure happens exactly when the id would exceed i32::MAX.",
 "every start id and number of bumps","history property with a boundary at 2^31",
 A("src/object.rs:405 Ref::new","src/object.rs:427 Ref::next","src/object.rs:434 Ref::bump"))
p("Name and number trees keep their entries",
 "Any sequence of insertions into a name or number tree leaf reads back as the key/value pairs in insertion order, and the kids and number limits as given; the limits of a name tree are written as names although the standard asks for strings.",
 "every sequence of insertions","unbounded",
 A("src/object.rs:1440 NameTree","src/object.rs:1515 NumberTree"))
p("Width and encoding-difference arrays decode",
 "Any sequence of consecutive/same calls on the CID width writer, and of consecutive/individual calls on the encoding difference writer, decodes by the PDF rules to exactly the assignments made.",
 "every call sequence","unbounded, grammar-driven decode",
 A("src/font.rs Widths","src/font.rs Differences"))
p("Additional-action setters use distinct keys",
 "Distinct trigger setters of the additional-actions writer write distinct dictionary keys. This fails for the page-close/page-visible annotation triggers.",
 "all pairs of setters","exhaustive over the table",
 A("src/actions.rs AdditionalActions"))
p("Every content method writes a standard operator with operands of its types",
 "Apart from the method for arbitrary operations, each method of Content writes an operator that the PDF standard defines, with the number and types of operands the standard requires, so any stream built from them is a sequence of well-formed operations.",
 "all method calls with all arguments, all sequences of them","seventy methods times all argument values and positions in a stream",
 A("src/content.rs Content"))

TQ="every sequence of calls of the methods named (and of the untyped dictionary or array methods), with every argument within the stated ranges, nested writers included"
TW="unbounded call sequences times argument values times nesting; a wrong key, a wrong value kind or a dropped separator for one argument is not seen by spot checks"
p("Document structure dictionaries say what was asked",
 "Whatever calls are made on the writers for the catalog, page tree nodes, pages, outlines and outline items, names, page labels, document information, viewer preferences, transitions and developer extensions, the dictionary that a reader gets has exactly the fixed entries and one entry per call, in call order, with the documented key and a value that reads back as the argument. Transition::opaque is the exception: it writes a number under the key F although its documentation and the standard ask for a boolean under B.",
 TQ,TW,
 A("src/structure.rs Catalog","src/structure.rs Page","src/structure.rs Pages","src/structure.rs Outline","src/structure.rs OutlineItem","src/structure.rs Names","src/structure.rs PageLabel","src/structure.rs DocumentInfo","src/structure.rs ViewerPreferences","src/transitions.rs Transition","src/structure.rs DeveloperExtension"))
p("Annotations, destinations and actions say what was asked",
 "Whatever calls are made on the writers for annotations, appearances, border styles, icon fits, destinations, actions, renditions and media clips, the object that a reader gets has exactly the fixed entries and the entries of the calls, in call order, with the documented keys and values that read back as the arguments. The _cymk setters write the components in the order cyan, yellow, magenta, black, which a reader takes for cyan, magenta, yellow, black.",
 TQ,TW,
 A("src/annotations.rs Annotation","src/annotations.rs Appearance","src/annotations.rs AppearanceCharacteristics","src/annotations.rs BorderStyle","src/annotations.rs IconFit","src/structure.rs Destination","src/actions.rs Action","src/actions.rs Fields","src/renditions.rs Rendition","src/renditions.rs MediaClip","src/renditions.rs MediaPlayParams"))
p("Form fields and signature requirements say what was asked",
 "Whatever calls are made on the writers for interactive forms, fields, choice options, signature locks, seed values and certificate seed values, the object that a reader gets has exactly the fixed entries and the entries of the calls, in call order, with the documented keys and values that read back as the arguments. Two setters write the key of another entry: appearance_filter writes LockDocument and signature_policy_commitment_type writes SignaturePolicyHashAlgorithm.",
 TQ,TW,
 A("src/forms.rs Form","src/forms.rs Field","src/forms.rs ChoiceOptions","src/forms.rs SignatureFieldLock","src/forms.rs SignatureSeedValue","src/forms.rs CertificateSeedValue","src/forms.rs SignatureTimeStamp"))
p("Font dictionaries say what was asked",
 "Whatever calls are made on the writers for Type 1, Type 3, Type 0 and CID fonts, font descriptors, encodings and CMap streams, the object that a reader gets has exactly the fixed entries and the entries of the calls, in call order, with the documented keys and values that read back as the arguments.",
 TQ,TW,
 A("src/font.rs Type1Font","src/font.rs Type3Font","src/font.rs Type0Font","src/font.rs CidFont","src/font.rs FontDescriptor","src/font.rs FontDescriptorOverride","src/font.rs Encoding","src/font.rs Cmap"))
p("Structure elements and attributes say what was asked",
 "Whatever calls are made on the writers for the structure tree root, structure elements, their children, role and class maps, namespaces, mark information and attribute objects, the object that a reader gets has exactly the fixed entries and the entries of the calls, in call order, with the documented keys and values that read back as the arguments.",
 TQ,TW,
 A("src/structure.rs StructTreeRoot","src/structure.rs StructElement","src/structure.rs StructChildren","src/structure.rs RoleMap","src/structure.rs ClassMap","src/structure.rs Namespace","src/structure.rs MarkInfo","src/attributes.rs Attributes","src/attributes.rs LayoutAttributes","src/attributes.rs TableAttributes"))
p("Resources, graphics state, patterns and shadings say what was asked",
 "Whatever calls are made on the writers for resource dictionaries, external graphics states, soft masks, tiling and shading patterns, shadings, groups, property lists, artifacts and output intents, the object that a reader gets has exactly the fixed entries and the entries of the calls, in call order, with the documented keys and values that read back as the arguments. ExtGraphicsState::font writes a font name where the standard asks for an indirect reference to a font.",
 TQ,TW,
 A("src/content.rs Resources","src/content.rs ExtGraphicsState","src/content.rs SoftMask","src/content.rs Artifact","src/content.rs PropertyList","src/color.rs TilingPattern","src/color.rs ShadingPattern","src/color.rs FunctionShading","src/color.rs StreamShading","src/color.rs OutputIntent","src/xobject.rs Group"))
p("External objects, embedded files, functions and metadata say what was asked",
 "Whatever calls are made on the writers for image and form XObjects, file specifications, embedded files, streams and their decoding parameters, sampled, exponential, stitching and PostScript functions and metadata, the object or stream that a reader gets has exactly the length, the fixed entries and the entries of the calls, in call order, with the documented keys and values that read back as the arguments, and the stream data unchanged.",
 TQ,TW,
 A("src/xobject.rs ImageXObject","src/xobject.rs FormXObject","src/files.rs FileSpec","src/files.rs EmbeddedFile","src/object.rs Stream","src/object.rs DecodeParms","src/functions.rs:49 SampledFunction","src/functions.rs:132 ExponentialFunction","src/functions.rs:179 StitchingFunction","src/functions.rs:224 PostScriptFunction","src/structure.rs Metadata"))
p("Documents built with the typed constructors read back",
 "A program writes any number of objects with the constructors that Chunk and Pdf offer (page, pages, catalog, stream, image_xobject, font_descriptor, annotation, ...), under any distinct ids and in any order, among other chunks and objects: in the finished file, with a plain cross-reference section or a cross-reference stream, every one of these ids resolves to an object or stream with exactly what was asked of the constructor under this id, every other id resolves to nothing, and the trailer points at the last catalog. The constructors panic only on the documented misuses.",
 "every sequence of constructor calls with any ids, every sequence of calls on each of the writers, both finishing methods, any filter that the reader can undo",
 "combines every writer with every position in the file; offsets, separators and lengths depend on everything that was written before",
 A("src/chunk.rs Chunk","src/lib.rs Pdf::catalog","src/lib.rs Pdf::document_info","src/lib.rs Pdf::finish","src/lib.rs Pdf::finish_with_xref_stream"))
p("Pages read back in order with their operations",
 "When a program writes a page tree of any shape, with a content stream or an array of content streams (made with Content, possibly compressed) for each page, a reader that starts from the trailer and follows the catalog, the page tree and the content streams finds the pages from left to right, each with exactly the operators and operands that were asked for, whatever else is in the file and in whatever order it was written.",
 "every page tree, every content, every order of the objects and every other object in the file, with a plain cross-reference section or a cross-reference stream",
 "quantifies over trees of unbounded depth and width and over unbounded contents, end to end from API calls to the file and back",
 A("src/structure.rs Pages","src/structure.rs Page::contents","src/structure.rs Page::contents_array","src/structure.rs Catalog::pages","src/chunk.rs Chunk::page","src/chunk.rs Chunk::pages","src/chunk.rs Chunk::stream","src/content.rs Content","src/lib.rs Pdf::finish"))
p("Documents assembled from renumbered chunks read back",
 "A program fills any number of chunks with any objects, extends chunks with chunks, renumbers chunks into chunks and into the document with closures that may carry state (as long as each answers the same id with the same id within one renumbering): in the finished file, every object that was ever written to one of the parts resolves, under the id that the composition of the closures gave it, to what was asked for, with every reference in it renamed by the same composition and stream data, strings and everything else untouched; other ids resolve to nothing, and the trailer points at the last catalog.",
 "every nesting of extend and renumber_into, every object and stream in the parts, every consistent closure with any state, both finishing methods",
 "quantifies over assembly trees of unbounded depth, over stateful closures and over the objects of all parts",
 A("src/chunk.rs Chunk::extend","src/chunk.rs Chunk::renumber","src/chunk.rs Chunk::renumber_into","src/renumber.rs renumber","src/lib.rs Pdf"))
p("The documented renumbering closure numbers consecutively",
 "With the closure from the documentation of Chunk::renumber (a map from old to new ids, filled from an allocator), the distinct ids of a chunk, dangling references included, get consecutive ids from the start of the allocator in the order of their first appearance, each exactly one; the result is that of renumbering by this fixed function, and the allocator ends right after the last of them, so that the next chunk gets other ids.",
 "every chunk history, every start of the allocator that leaves room",
 "quantifies over all chunks and all orders of ids and references",
 A("src/chunk.rs Chunk::renumber","src/object.rs Ref::bump","src/renumber.rs renumber"))
p("Any sequence of writer calls writes exactly one object",
 "Whatever calls a program makes on an object writer, the arrays and dictionaries opened from it (push, insert, item, items, pair, pairs, nested to any depth, with any interleaving that compiles) until all of them are dropped, the buffer then holds exactly the text of the one tree that these calls spell out; item, items, pair and pairs do what their longhand does; at every moment len is the number of items (entries) written to that very array (dictionary) and is_empty tells whether there are none. The same holds for the entries of a stream. An object writer that is dropped unused leaves an array with a wrong count and a dictionary that cannot be read.",
 "every sequence of calls that respects the borrows, of any length and nesting depth, on every kind of root writer and buffer",
 "quantifies over all call histories and all moments in them",
 A("src/object.rs Obj","src/object.rs Array","src/object.rs Dict","src/object.rs TypedArray","src/object.rs TypedDict","src/object.rs Stream","src/object.rs Array::len","src/object.rs Dict::len"))
p("Pages of documents assembled from renumbered parts read back in order",
 "When the pages, page tree nodes and content streams of a document come from any number of chunks that were extended with and renumbered into each other and into the document, and the renamed references make up a page tree in the end, a reader that starts from the trailer finds the pages of this tree from left to right, each with exactly the operators and operands that were asked for.",
 "every assembly of chunks, every consistent closure with any state, every page tree and every content, both finishing methods",
 "combines renumbering, assembly, page trees of unbounded depth and unbounded contents end to end",
 A("src/chunk.rs Chunk::extend","src/chunk.rs Chunk::renumber_into","src/structure.rs Pages","src/structure.rs Page","src/content.rs Content","src/lib.rs Pdf::finish"))
p("Debug and release builds agree unless an i32 overflows",
 "A debug build panics while writing an object exactly if i32::MIN is written somewhere in it, or an array or dictionary in it gets more than i32::MAX items, or a string opens more than i32::MAX parentheses; otherwise it writes the same bytes and limits as a release build, which never panics. None of the size conditions can occur below 2 GiB: as long as chunks and files are smaller, whole histories with extending, renumbering and finishing give the same in both builds (debug builds also cannot finish a file with the object number i32::MAX). Beyond, release builds can write wrong text: the items of an array of 2^32 + 1 items run together, and a string of 2^32 opening parentheses does not end.",
 "every object, chunk history and file, both build profiles",
 "quantifies over all inputs, including sizes no test can allocate",
 A("src/buf.rs Limits::register_int","src/object.rs Str::is_balanced","src/object.rs Array::push","src/object.rs Dict::insert","src/renumber.rs patch_object","src/lib.rs write_offsets"))
p("Text can be extracted from every page",
 "When a program writes a page tree of any shape, with fonts in the resource dictionaries of pages or of nodes above them (composite fonts with an Identity encoding or simple fonts), with ToUnicode character maps made with UnicodeCmap (possibly compressed) and contents made with Content, a reader that starts from the trailer, follows the catalog, the page tree, the inherited resources, the fonts and their character maps, and splits the shown strings into codes finds for every page exactly the Unicode text that the program gave for the glyphs it shows, in order; saving and restoring the graphics state restores the font.",
 "every page tree, every set of fonts and mappings, every content, every order of the objects and every other object in the file, both finishing methods",
 "combines trees, contents, fonts and character maps of unbounded size end to end",
 A("src/font.rs UnicodeCmap","src/font.rs Type0Font::to_unicode","src/font.rs Type1Font::to_unicode","src/font.rs Type3Font::to_unicode","src/content.rs Resources::fonts","src/structure.rs Page::resources","src/structure.rs Pages::resources","src/content.rs Content::set_font","src/content.rs Content::show","src/content.rs Content::show_positioned","src/chunk.rs Chunk::cmap","src/lib.rs Pdf::finish"))
p("Embedded files are found with their names and contents",
 "When a program writes a name tree of embedded files of any shape (in the catalog's name dictionary, with any number of levels of intermediate nodes), file specifications and embedded file streams (possibly compressed), a reader that starts from the trailer lists the files in the order of the tree, each with its key, its Unicode file name if it was given one, and exactly its contents.",
 "every name tree, every set of files and contents, every order of the objects and every other object in the file, both finishing methods",
 "trees and contents of unbounded size, end to end through the cross-reference section",
 A("src/structure.rs Names::embedded_files","src/object.rs NameTree","src/files.rs FileSpec","src/files.rs EmbeddedFile","src/chunk.rs Chunk::name_tree","src/chunk.rs Chunk::embedded_file"))
p("Bookmarks are found nested as written, with their targets",
 "When a program writes an outline of any shape, linked by first and next, with targets given by page and view or by the name of a destination, a reader that starts from the trailer finds the bookmarks in order and nested as written, with their titles, and for each target the number of the page in reading order and the kind of view; a name is resolved by the first entry with this name in the destinations dictionary.",
 "every outline, every page tree, every set of named destinations, every other object in the file, both finishing methods",
 "outlines and page trees of unbounded size, end to end through the cross-reference section",
 A("src/structure.rs Outline","src/structure.rs OutlineItem","src/structure.rs Destination","src/structure.rs Catalog::destinations","src/structure.rs Catalog::outlines","src/chunk.rs Chunk::destinations","src/structure.rs Pages"))
p("Page labels come out as asked for",
 "When a program writes a number tree of page labels of any shape, a reader that starts from the trailer computes for every page of the document the label text (prefix, numeral in the style asked for, starting at the offset) that belongs to the last labelled page up to it.",
 "every number tree, every set of labels, every page tree, every other object in the file, both finishing methods",
 "trees of unbounded size and all page numbers, end to end through the cross-reference section",
 A("src/structure.rs PageLabel","src/object.rs NumberTree","src/structure.rs Catalog::page_labels","src/chunk.rs Chunk::number_tree"))
p("Links lead where they should",
 "When a program puts annotations on the pages of a page tree of any shape, a reader that starts from the trailer finds for every page the links among them in order, each with the number (in reading order) of the page it leads to and the kind of view, given directly or by a named destination, or with the address for URI actions; other annotations are not taken for links.",
 "every page tree, every list of annotations per page, every set of named destinations, every other object in the file, both finishing methods",
 "quantifies over documents of unbounded size, end to end through the cross-reference section",
 A("src/annotations.rs Annotation","src/actions.rs Action","src/structure.rs Page::annotations","src/structure.rs Destination","src/chunk.rs Chunk::annotation"))
p("The logical structure of tagged documents reads back",
 "When a program writes a structure tree of any shape (standard roles of PDF 1.7 and 2.0, custom roles with and without a role map, roles of other namespaces, titles, alternative descriptions and replacement texts, children that are elements, marked-content sequences of the element's or another page, or objects), a reader that starts from the trailer finds the same tree in order, with the meaning of every role and the number (in reading order) of the page of every marked-content sequence; through the parent tree it finds for every page the elements that own its marked-content sequences. The name Namespace::pdf_2_ns writes is not the name of PDF 2.0's namespace, so that a reader takes the roles for foreign ones.",
 "every structure tree, role map, parent tree and page tree, every other object in the file, both finishing methods",
 "trees of unbounded size, end to end through the cross-reference section",
 A("src/structure.rs StructTreeRoot","src/structure.rs StructElement","src/structure.rs StructChildren","src/structure.rs MarkedRef","src/structure.rs ObjectRef","src/structure.rs RoleMap","src/structure.rs Namespace","src/object.rs NumberTree","src/structure.rs Page::struct_parents"))
p("The text of tagged content is found through the structure",
 "When a program marks content on the pages of a document with begin_marked_content, begin_marked_content_with_properties (with an identifier) and end_marked_content, nested in any way, and writes a structure tree, a reader that starts from the trailer finds for every marked-content sequence the structure refers to exactly the Unicode text that was shown between its beginning and its end outside of inner sequences with an identifier of their own.",
 "every page tree, content, nesting of marked content, font, character map and structure tree, both finishing methods",
 "combines contents, character maps and structure trees of unbounded size end to end",
 A("src/content.rs Content::begin_marked_content","src/content.rs Content::begin_marked_content_with_properties","src/content.rs PropertyList::identify","src/content.rs Content::end_marked_content","src/content.rs Content::show","src/structure.rs StructElement::marked_content_child","src/font.rs UnicodeCmap"))
p("Everything is painted in order, with the graphics state asked for",
 "When a program writes pages with contents made with Content, with images and forms (nested to any depth, with contents and resources of their own) as XObjects in the resources, a reader that starts from the trailer finds for every page the list of what is painted in order: paths, shown text, shadings and images with their data, each with exactly the graphics state calls in effect for it (not undone by restore_state), the paths it is clipped to, the forms it is inside of, and for every name the resource dictionary it belongs to.",
 "every page tree, content, nesting of save_state and restore_state, every tree of XObjects, every other object in the file, both finishing methods",
 "quantifies over unbounded contents and nesting depths of states and forms, end to end",
 A("src/content.rs Content","src/content.rs Content::x_object","src/content.rs Content::save_state","src/content.rs Content::restore_state","src/content.rs Resources::x_objects","src/xobject.rs ImageXObject","src/xobject.rs FormXObject","src/chunk.rs Chunk::image_xobject","src/chunk.rs Chunk::form_xobject"))
p("Form fields are found with their names, attributes and widgets",
 "When a program writes an interactive form with a tree of fields of any shape, a reader that starts from the trailer finds the terminal fields in order, each with the parts of its fully qualified name, with the type, the flags, the value, the default appearance and the alignment that it has or inherits from the fields above it (the latter two also from the form), and with its widgets (the field itself, or its nameless children) and the numbers of the pages that list them. A null value counts as none, so that choice_value(None) on a field below one with a value does not deselect it: the value above is inherited.",
 "every tree of fields, every choice of attributes at every level, every page tree and distribution of widgets, every other object in the file, both finishing methods",
 "trees of unbounded depth with inheritance, end to end through the cross-reference section",
 A("src/forms.rs Form","src/forms.rs Field","src/forms.rs Field::into_annotation","src/forms.rs Field::children","src/structure.rs Catalog::form","src/chunk.rs Chunk::form_field","src/chunk.rs Chunk::annotation","src/structure.rs Page::annotations"))
p("Annotations are found on their pages with their appearances",
 "When a program puts annotations (written with Chunk::annotation, or fields made annotations) on the pages of a page tree of any shape, a reader that starts from the trailer finds for every page its annotations in order, each with its kind, its rectangle, exactly the flags asked for, and what its normal appearance paints: the form XObject given, or the one given for the annotation's appearance state; nothing if there is none for it. The forms may draw further forms and images to any depth.",
 "every page tree, every list of annotations per page, every set of appearance streams and states, every content, every other object in the file, both finishing methods",
 "quantifies over documents, contents and nesting of unbounded size, end to end through the cross-reference section",
 A("src/annotations.rs Annotation","src/annotations.rs Annotation::flags","src/annotations.rs Annotation::appearance","src/annotations.rs Annotation::appearance_state","src/annotations.rs Appearance","src/annotations.rs AppearanceEntry","src/forms.rs Field::into_annotation","src/chunk.rs Chunk::form_xobject","src/structure.rs Page::annotations"))
p("The document's properties are found",
 "When a program sets the document's properties, a reader finds them: the version (the later of the one in the header, whose two numbers are each the last one below 10 given to set_version, 1.7 by default, and the one given to Catalog::version), the file identifier last set, every entry of the last document information dictionary (texts, dates to the precision and with the values given, trapping status), the content of the XMP metadata stream, the language, the page layout and the page mode; and it finds none of those that were not set.",
 "every sequence of calls on Pdf, every information dictionary, catalog and metadata content, every other object in the file, both finishing methods",
 "quantifies over documents and texts of unbounded size and over all orders of calls, end to end through the trailer",
 A("src/lib.rs Pdf::set_version","src/lib.rs Pdf::set_file_id","src/lib.rs Pdf::document_info","src/structure.rs DocumentInfo","src/structure.rs Catalog::version","src/structure.rs Catalog::lang","src/structure.rs Catalog::metadata","src/structure.rs Catalog::page_mode","src/structure.rs Catalog::page_layout","src/structure.rs Metadata"))
p("The pages have the boxes, rotation and unit asked for",
 "When a program writes a page tree of any shape, a reader finds for every page the boxes, the rotation and the user unit asked for: the media box, crop box and rotation given at the page or else at the nearest node above it that gives them, the media box where no crop box is given, the crop box where no bleed, trim or art box is given, rotation 0 and the default unit where none is given.",
 "every page tree of any depth and width, every set of boxes and rotations at every node, every other object in the file, both finishing methods",
 "quantifies over page trees of unbounded size, end to end through the cross-reference section",
 A("src/structure.rs Pages","src/structure.rs Pages::media_box","src/structure.rs Page::media_box","src/structure.rs Page::crop_box","src/structure.rs Page::bleed_box","src/structure.rs Page::trim_box","src/structure.rs Page::art_box","src/structure.rs Page::rotate","src/structure.rs Page::user_unit"))
p("Fonts are found with their glyphs and programs",
 "When a program uses fonts (Type 1, Type 3, composite) on the pages of a page tree of any shape, a reader that starts from the trailer finds for every page every font under its name with what was asked for: its base font, its encoding, the glyph name of every code given by differences, the width of every code or CID (the missing or default width where no other is given), what the glyph procedures of a Type 3 font draw, the bytes of the embedded font program and how it is embedded, and the map from CIDs to glyphs.",
 "every page tree, every set of fonts, every code, every width array and differences, every program content, every other object in the file, both finishing methods",
 "quantifies over documents, fonts and programs of unbounded size and all codes, end to end through the cross-reference section",
 A("src/font.rs Type1Font","src/font.rs Type3Font","src/font.rs Type0Font","src/font.rs CidFont","src/font.rs Encoding","src/font.rs Differences","src/font.rs Widths","src/font.rs FontDescriptor","src/chunk.rs Chunk::type1_font","src/chunk.rs Chunk::type3_font","src/chunk.rs Chunk::type0_font","src/chunk.rs Chunk::cid_font","src/chunk.rs Chunk::font_descriptor"))
p("Assembling a document from parts does not change what it says",
 "When a program writes parts of a document into chunks of their own, extends chunks with chunks and renumbers chunks into chunks and into the document, by closures with a memory, then the finished document says what it would say if all of it had been written to the document itself, with the ids and the references that the closures gave: pages, drawings, text, attachments, bookmarks, labels, links, structure, fields, fonts and so on are found alike. If all chunks have the same settings it is the same file, byte for byte, and panics for the same programs.",
 "every program of parts, every nesting of extend and renumber_into, every consistent closure, every typed call and every reference among its arguments, both finishing methods, any settings (same settings for the bytes)",
 "quantifies over programs, nestings and closures; relates two unbounded executions",
 A("src/chunk.rs Chunk::extend","src/chunk.rs Chunk::renumber_into","src/chunk.rs Chunk::renumber","src/renumber.rs","src/lib.rs Pdf"))
p("A Pdf can be used wherever a Chunk can",
 "A Pdf dereferences to the chunk it writes. Renumbering a Pdf into a chunk or into another Pdf copies exactly the objects that the same calls would have written to a chunk, with the ids and references the closure gives, and neither its header nor its trailer settings; the finished target then has every object of the source under its new number, whatever memory the closure has, and no others, with either kind of cross-reference. Extending a chunk or a Pdf by a Pdf copies the header along, moves every offset accordingly, and the finished file has the objects of both and the trailer of the extended one.",
 "every history of calls on either Pdf, every closure, every target, any binary marker and version",
 "relates two unbounded executions for all histories and closures",
 A("src/lib.rs:492 impl Deref for Pdf","src/lib.rs:500 impl DerefMut for Pdf","src/chunk.rs Chunk::extend","src/chunk.rs Chunk::renumber_into"))
p("Panics that are caught leave every finished object intact",
 "When a panic unwinds past open writers and is caught, every open writer is closed by its Drop: an object cut short between two calls is exactly the tree of the calls made so far, and a stream likewise keeps its data. Stream data that is too long leaves an empty dictionary. A renumbering closure that panics leaves the objects copied so far complete and at most one damaged. If the document is finished later (by either method), every complete object, written before or after the panics, is found under its id, unused ids resolve to nothing, and header and trailer are as asked (a catalog or info id counts even if its writer was cut short); finishing works exactly if no id was used twice. Not promised: an object whose last opened place (the indirect object itself, a push, an insert) was never filled, or the one that a panicking closure cut short.",
 "every history of calls, every point between two calls at which a panic may come, any number of panics, every closure",
 "ranges over all crash points of all histories",
 A("src/object.rs:844 Drop for Array","src/object.rs:1013 Drop for Dict","src/object.rs:1148 Drop for Stream","src/object.rs:1118 Stream::start","src/renumber.rs:6 renumber","src/chunk.rs Chunk::indirect","src/chunk.rs Chunk::stream","src/chunk.rs Chunk::renumber_into","src/lib.rs:293 Pdf::catalog"))
p("Names, element identifiers and number trees can be looked up in the finished file",
 "A reader that starts from the trailer finds in each of the ten trees of the name dictionary exactly the names written there, in order, each with the object it was given; named destinations lead to the page and view asked for; identifiers of structure elements lead to the elements that carry them. In a number tree (parent tree, page labels) whose nodes were written with their limits and ascending keys, a reader that follows only the one path the limits allow finds for every key exactly the object given for it, and nothing for other keys.",
 "every document, every shape and size of tree, every key",
 "relates arbitrarily nested trees of calls to what an independent reader finds in the file",
 A("src/structure.rs:2203 Names","src/structure.rs:359 StructTreeRoot::id_tree","src/structure.rs:366 StructTreeRoot::parent_tree","src/object.rs NameTree","src/object.rs NumberTree","src/chunk.rs Chunk::destination","src/structure.rs:478 StructElement::id"))
p("Content operations are the same whether written at once, call by call, or cut short",
 "An operation in a content stream whose operands are written through its writers (operand, operands, obj with nested arrays and dictionaries) is the same as one written with the finished operands. If a panic unwinds through it and is caught, the operation is complete with the operands so far; a method that refuses its argument leaves the stream unchanged; the stream as a whole reads back as the operations it amounts to. Not promised if the calls stop where a place for a value is open.",
 "every sequence of operations, every sequence of calls within each, every point between two calls at which a panic may come",
 "ranges over all crash points and call sequences",
 A("src/content.rs:62 Content::op","src/content.rs:101 Operation::operand","src/content.rs:108 Operation::operands","src/content.rs:121 Operation::obj","src/content.rs:145 Drop for Operation"))
p("Functions are found with everything they are made of",
 "In a finished document, a reader that resolves references from the trailer finds the function written under any id: sampled (domain, range, sizes, bits, order, encoding, decoding and the samples themselves through the filter), exponential, stitched from further functions to any depth, or a calculator program, with the standard's defaults for what was not given. Not promised for entries that are given twice or by raw access.",
 "every program that writes the function's parts with the methods of its writers, every nesting of stitching functions, table and stream cross-references, and assembled documents",
 "ranges over all programs and all trees of functions",
 A("src/functions.rs:27 common_func_methods","src/functions.rs:49 SampledFunction","src/functions.rs:132 ExponentialFunction","src/functions.rs:179 StitchingFunction","src/functions.rs:224 PostScriptFunction"))
p("Color spaces, shadings, patterns and graphics states are found under their names",
 "A reader that starts from the trailer of a finished document finds, for every page, each color space, shading, pattern and graphics state dictionary under the name its resources give it, whether written in place or by reference, with everything it refers to: ICC profiles, alternate spaces and tint transforms, the functions of shadings and transfer functions, what a tile paints, what the group of a soft mask paints.",
 "every program, page tree, inheritance of resources, nesting of alternate spaces, functions and XObjects",
 "ranges over all programs and all nestings",
 A("src/color.rs ColorSpace, Separation, DeviceN, IccProfile, FunctionShading, StreamShading","src/content.rs Resources, ExtGraphicsState, SoftMask","src/color.rs TilingPattern, ShadingPattern","src/functions.rs"))
p("Actions are found at their events",
 "A reader that starts from the trailer of a finished document finds for each event of the document, of every page, of every annotation and of every form field (at any depth of the form) the action that was attached to it, and for every annotation the action of its activation, with everything the action refers to: the page and view of a destination, directly or by name, file names with the contents, type, size, dates and checksum of embedded files, scripts in text or in streams, form fields by object or name, flags, and the media of renditions.",
 "every program, page tree, form and list of actions; all events but one (see C48_page_close_refuted)",
 "ranges over all programs and forms of any depth",
 A("src/actions.rs Action, AdditionalActions, Fields","src/files.rs FileSpec","src/renditions.rs Rendition, MediaClip, MediaPlayParams, MediaPermissions","src/structure.rs Catalog::additional_actions, Page::additional_actions","src/annotations.rs Annotation::action","src/forms.rs Field::additional_actions"))
p("The presentation of a document is found",
 "A reader that starts from the trailer of a finished document finds the viewer preferences, the marking of tagged documents, the developer extensions, the output intents with the contents of their profiles and the associated files that were given to the catalog; and for every page, in order, its date, duration, transition, transparency group, tab order, thumbnail, metadata and associated files. Separation information, which a reader looks for in the page, cannot be found: only the catalog has a method for it.",
 "every program and page tree",
 "ranges over all programs and page trees",
 A("src/structure.rs Catalog::viewer_preferences, mark_info, extensions, output_intents, associated_files, separation_info; Page","src/structure.rs ViewerPreferences, MarkInfo, DeveloperExtension","src/transitions.rs Transition","src/color.rs OutputIntent","src/xobject.rs Group"))
p("Images and forms are found with all that belongs to them",
 "A reader that starts from the trailer of a finished document finds for every page the images and forms that its contents can draw, by their names (inherited or not): for images the size, color space with its profile or tint functions, depth, intent, decoding, interpolation, parameters of the filters with the global segments, metadata, files and samples, the colors that are masked out or the mask with its samples, and the soft mask; for forms the box, matrix, transparency group, referenced document, dates, metadata and files, and all images and forms that they can draw in turn, to any depth.",
 "every program, page tree and nesting of forms",
 "ranges over all programs and nestings of any depth",
 A("src/xobject.rs ImageXObject, FormXObject, Group, Reference","src/object.rs DecodeParms, Stream::decode_parms","src/content.rs Resources::x_objects","src/color.rs ColorSpace"))
p("Attributes, classes, identifiers and namespaces of tagged documents are found",
 "A reader that starts from the trailer of a finished tagged document finds, for every element of the structure in document order, its attribute objects by their owners (layout with colors, sides, sizes of columns and heights of lines; lists; form fields; tables with headers, spans and scope; artifacts; notes; user properties; the attributes of namespaces and of other owners), the classes it names with all their attribute objects from the class map, and its identifier, references, revision, language, expansion, pronunciation and associated files: each as it was given, and nothing else. From the root it finds the elements by their identifiers (through trees of any depth), the namespaces with their schemas and with what their types stand for, the next key of the parent tree, lexicons and files.",
 "every program, structure tree, class map and list of attribute objects",
 "ranges over all programs and structure trees of any depth, and all attribute values",
 A("src/attributes.rs Attributes, LayoutAttributes, ListAttributes, FieldAttributes, TableAttributes, ArtifactAttributes, FENoteAttributes, UserProperty","src/structure.rs StructElement, StructTreeRoot, ClassMap, Namespace, NamespaceRoleMap"))
p("Annotations are found with all that belongs to them",
 "A reader that starts from the trailer of a finished document finds, for every page in order, its annotations (written with Chunk::annotation, or fields made annotations) with what was given for each: contents, page, name, date of modification, border with radii, width and dashes, border style, color, key into the structure, highlighting, author (or the partial name of the field), subject, quadrilaterals, line, file with its content, icon, appearance characteristics (rotation, colors, captions, icons, how icons fit, where the text goes), parent, associated files, the appearance state and the objects that are the appearances; nothing where nothing was given. Colors are found in the order of the parameters, which is not the standard's for the two *_cymk setters (C51_cymk_refuted).",
 "every program, page tree and list of annotations",
 "ranges over all programs, page trees of any depth and all values",
 A("src/annotations.rs Annotation, AppearanceCharacteristics, IconFit, BorderStyle, Appearance, AppearanceEntry","src/forms.rs Field::into_annotation","src/structure.rs Page::annotations"))
p("Form fields are found with all their details",
 "A reader that starts from the trailer of a finished document finds the form with its signature flags, calculation order and default fonts, and its fields in order, each before those below it: the parts of its full name, its default value and greatest length (its own or else those of the nearest field above that has them; a default value of null counts as none), its alternate and mapping names, parent, options (what is shown and what is exported, for buttons and choices), default style, rich value, first visible option, selected options, what its signature locks and its seed value with certificate, key usages, modification rules and time stamp; nothing where nothing was given. For SignaturePolicyHashAlgorithm and LockDocument this is promised if the methods that wrongly share those keys are not used (C52_commitment_type_refuted, C52_appearance_filter_refuted).",
 "every program and field tree of any depth",
 "ranges over all programs, field trees of any depth and all values",
 A("src/forms.rs Form, Field, ChoiceOptions, SignatureFieldLock, SignatureSeedValue, CertificateSeedValue, CertificateKeyUsage, SignatureTimeStamp, SignatureModificationDetectionPrevention","src/chunk.rs Chunk::form_field, Chunk::signature_field_lock, Chunk::signature_seed_value","src/structure.rs Catalog::form"))
p("Fonts are found with all their details",
 "A reader that starts from the trailer of a finished document finds for every page its fonts under the names the content uses, with what was given for them: the names of Type 1 fonts; name, bounding box and matrix of Type 3 fonts; of composite fonts the name, the encoding (a predefined one, or a CMap with its name, character collection, writing mode, the CMap it builds on and its content), and of the CIDFont its type, name and character collection; and the font descriptor with its names, stretch, weight, flags, bounding box, metrics, font programs, character and CID sets, style and, for any depth, the descriptors that replace it for classes of glyphs, in place or as objects of their own; nothing where nothing was given.",
 "every program, page tree, set of fonts and nesting of descriptors",
 "ranges over all programs and descriptors nested to any depth and all values",
 A("src/font.rs Type1Font, Type3Font, Type0Font, CidFont, FontDescriptor, FontDescriptorOverride, Cmap","src/chunk.rs Chunk::type1_font, Chunk::type3_font, Chunk::type0_font, Chunk::cid_font, Chunk::font_descriptor, Chunk::cmap"))
p("Outlines read from their end and pages read upwards",
 "A reader that starts from the trailer of a finished document and goes through the outline from the last item, back over the previous items and down into the last item below each, finds the items in their order and nested as written, each with its title, the item above it, its count (negative when it is closed), color and style, and the count of the outline; nothing where nothing was given. A reader that goes up from any page finds the page tree nodes above it, the nearest one first, each with the number of the pages in it, up to the root.",
 "every program, outline and page tree of any depth and width",
 "ranges over all programs and trees nested to any depth",
 A("src/structure.rs Outline, OutlineItem, Page::parent, Pages::parent, Pages::count","src/chunk.rs Chunk::outline, Chunk::outline_item, Chunk::pages, Chunk::page"))
p("Marked content and its property lists are found",
 "A reader that starts from the trailer of a finished document finds for every page its content with the marks in it: the operations, points and sequences in their order, the sequences nested as they were begun and ended, each with its tag and, if it was given one, its property list, written in place or found by its name in the resources that hold for the page, with its identifier, its text and, of an artifact, the type, subtype, bounding box and edges; and the procedure sets of the resources.",
 "every program, page tree and content with sequences nested to any depth",
 "ranges over all programs, contents and nestings",
 A("src/content.rs Content::begin_marked_content_with_properties, Content::marked_content_point_with_properties, Content::end_marked_content, MarkContent, PropertyList, Artifact, Resources::properties, Resources::proc_sets, Resources::proc_sets_all"))
p("A finished file can be read from front to back, and this agrees with its cross-references",
 "A reader that takes a finished file from its first byte to its last and follows no offset finds the version line, then exactly the objects and streams that were written, in the order of the calls, then the cross-reference table with the trailer, or, last among the objects, the cross-reference stream, then startxref with the position at which that section was met, and %%EOF as the last bytes. The cross-reference entry of every object is the position at which it was met, and resolving any number by the cross-references gives the same as looking for it among the objects met. This holds unless the binary marker was given a line end, which ends the comment early (refuted by an example).",
 "every sequence of calls on a Pdf and each way of finishing it",
 "ranges over all call sequences, objects and stream contents, also those that look like parts of a file",
 A("src/lib.rs Pdf::with_settings_and_capacity, Pdf::set_binary_marker, Pdf::finish, Pdf::finish_with_xref_stream, Pdf::finish_with_xref_stream_and_filter, finish_with_xref_stream_inner","src/chunk.rs Chunk::indirect, Chunk::stream, Chunk::extend"))
p("The parameters of graphics states, shadings and patterns are found under the names the page uses",
 "A reader that starts from the trailer of a finished file finds for every page the graphics state dictionaries, shadings and patterns that its resources name, in place or by reference, with every parameter that the program gave and none that it did not give: line width, cap, join, miter limit, dash pattern, rendering intent, overprint and its mode, the default functions, halftone, flatness, smoothness, stroke adjustment, blend mode, alpha constants, alpha source, text knockout, the soft mask with its kind and backdrop; type, background, bounding box, anti-aliasing, domain, matrix, coordinates and extension of a shading, and the bits, decode array and row length of a mesh; paint and tiling type, box, steps and matrix of a tile; matrix, shading and graphics state of a shading pattern. (The font of a graphics state is not written as the standard asks: C55_font_refuted.)",
 "every finished document, page tree and resources, every choice and order of the setters, all parameter values",
 "ranges over all documents and all subsets and orders of setter calls, including repeated calls that a reader would have to choose between",
 A("src/content.rs ExtGraphicsState, SoftMask","src/color.rs TilingPattern, ShadingPattern, FunctionShading, StreamShading","src/content.rs Resources::ext_g_states, Resources::patterns, Resources::shadings"))
p("The glyphs of Type 3 fonts paint what was asked for, with the resources they were given",
 "A reader that starts from the trailer of a finished file finds for every page and every font that its resources name the glyphs of the font by name (none unless it is a Type 3 font), and for each glyph the drawings its procedure makes, in order and with the graphics state settings in force, where an XObject is looked up in the resources of the font if it was given any and otherwise in those of the page.",
 "every finished document, page tree, set of fonts, glyph procedures and resources",
 "ranges over all documents and content streams, and depends on several dictionaries and streams written at different times fitting together",
 A("src/font.rs Type3Font::char_procs, Type3Font::resources","src/content.rs Content, Resources::fonts, Resources::x_objects","src/chunk.rs Chunk::type3_font"))
p("A leaked writer, an unused object or a damaged source chunk spoils no other object",
 "Whatever writers are leaked (`mem::forget`) at whatever point, whichever objects are left unused and wherever panics are caught, also in chunks that are later renumbered or extended into the document: an object is damaged only if one of its own writers was forgotten, one of its own places was left unused or it was cut short at an open place. Every other object and stream is found whole under its id in the finished file, unused ids resolve to nothing, header and trailer are as asked, and finishing succeeds exactly if no id is used twice. Renumbering from a chunk with damaged objects never panics by itself, copies every whole object with its id and references mapped in order, and leaves a damaged one out or damaged under the number given for it.",
 "every sequence of operations and calls, every subset of writers leaked at every point, every caught panic, every closure, both layouts, both cross-reference forms",
 "ranges over all interleavings of leaks and panics with all histories; what the scanner of renumbering does on broken bytes depends on all bytes",
 A("src/object.rs Drop for Array, Dict, Stream","src/chunk.rs Chunk::indirect, Chunk::stream, Chunk::extend, Chunk::renumber_into","src/renumber.rs renumber, extract_object, patch_object","src/lib.rs Pdf::finish, Pdf::finish_with_xref_stream"))
p("The chunk of a Pdf can be replaced, taken and swapped; the header goes with the chunk, the trailer stays with the Pdf",
 "A `Pdf` dereferences mutably to its `Chunk`, so that `*pdf = chunk`, `mem::replace`, `mem::take` and `mem::swap` are possible, and chunks with the header of a Pdf in them can be extended, renumbered and put into other Pdfs. For every history of such operations mixed with all other ones: they panic exactly if a stream is too long; finishing succeeds exactly if no id of the final chunk is used twice; the file has exactly the objects of the final chunk, each under its id; renumbering ignores headers between objects; the trailer has the catalog, information and file id that were set on this Pdf. The file starts with a header exactly if the final chunk does, and it then says what was last set in that chunk. Replacing the chunk by a fresh one loses the header, and setting the version afterwards overwrites bytes of the first object or panics (refuted, finding 35).",
 "every history of chunks and Pdfs that use, replace and take each other's chunks, every closure, both layouts, both ways to finish",
 "ranges over all histories of two mutually nested kinds of values",
 A("src/lib.rs Deref for Pdf, DerefMut for Pdf, Pdf::set_version, Pdf::set_binary_marker, Pdf::finish","src/chunk.rs Chunk::extend, Chunk::renumber_into","src/renumber.rs renumber, extract_object"))
p("A finished file depends only on what is asked for, and determines it",
 "Two sequences of calls on a `Pdf` that ask for the same objects in the same order, the same version and binary marker, and the same catalog, information and file ids - however the objects got there (written directly, through extended, merged or renumbered chunks) and whenever header and trailer were set - panic both or not at all, and `finish`, `finish_with_xref_stream` and `finish_with_xref_stream_and_filter` give the same bytes for both, provided that all chunks have the same `pretty` setting (needed: refuted otherwise). In particular, replacing every secondary chunk by direct calls with the final ids changes no byte. Conversely, if two documents finish to the same bytes, they have the same header, the same object numbers, the same catalog, information and file ids, the same id of the cross-reference stream, and object by object, in order, a common reading; a file with a table is never one with a cross-reference stream. And whatever the layouts, and whichever way each was finished, two files of the same document have the same header, the same value under the id of every readable object, nothing else, and trailers that say the same.",
 "every two sequences of calls, every closure, filter and id of a cross-reference stream, both layouts",
 "relates all pairs of call sequences; a test compares two",
 A("src/lib.rs Pdf::finish, Pdf::finish_with_xref_stream, Pdf::finish_with_xref_stream_and_filter","src/chunk.rs Chunk::extend, Chunk::renumber_into, Chunk::indirect, Chunk::stream","src/renumber.rs renumber"))
p("A file that was cut short still gives up every object that is whole",
 "If only the first n bytes of a finished file were stored (any n: a full disk, a broken connection, a killed process), a reader that goes through these bytes from the beginning and takes every indirect object it meets gets exactly the objects whose `endobj` ends within the n bytes: all of them, in the order in which they were written, each with the content it was given and the one that the complete file gives for its number. No cut makes the reader take something for an object that is none, or an object for another one - wherever the cut is, also inside a number, a name, a string, a keyword, a comment or the data of a stream. The same holds for `finish_with_xref_stream` and for the variant with a filter, where the cross-reference stream is the last object. (As in C93: every object is readable and the marker has no line end.)",
 "every sequence of calls, both layouts, every number of bytes that were stored",
 "quantifies over all documents and all points at which the file can be cut; a test tries a few",
 A("src/lib.rs Pdf::finish, Pdf::finish_with_xref_stream","src/chunk.rs Chunk::indirect, Chunk::stream, Chunk::extend","src/object.rs Obj::indirect","src/object.rs Stream::drop"))
p("Streams can be delimited by their keyword as well as by their length",
 "A reader that ignores `/Length` and takes for the data of a stream everything up to the next `endstream` (without the end of line before it), as repairing programs do, gets from a finished file, and from every beginning of it, exactly the same objects with the same data as a reader that trusts the lengths - exactly if the keyword occurs in no data and no data ends with a carriage return: `pdf-writer` puts a single line feed after the data, so a last carriage return is taken for a part of the end of line (C100_carriage_return_refuted), and data is written as it is, so that a keyword in it ends it early (C100_keyword_in_data_refuted). The data of an unfiltered cross-reference stream is never a problem. (As in C93: every object is readable and the marker has no line end.)",
 "every sequence of calls, both layouts, every number of bytes that were stored",
 "quantifies over all documents, all stream data and all cuts; a test tries a few",
 A("src/object.rs Stream::drop","src/chunk.rs Chunk::stream","src/lib.rs Pdf::finish, Pdf::finish_with_xref_stream"))
p("The size of the output is linear in what is written",
 "No value blows up: writing a value into an array or dictionary adds at most `cost` bytes and a space, where the cost is fixed for numbers (11 bytes for an integer, 48 for a real - also for the smallest and largest ones, which are written without an exponent), 14 for a reference, 2 + 4n for a byte string, 1 + 3n for a name, 6 + 8n for a text, and adds up over arrays and dictionaries, with at most 256 bytes per entry for layout in pretty output, however deep the nesting. These bounds are reached for every length (C101_attained). A chunk - extended and renumbered in any way - is not larger than its objects cost, and renumbering does not change the cost. A finished file is what was written plus exactly 20 bytes for every number from 0 to the largest one used (so sparse numbering is paid for) plus at most 1440 bytes and the file identifier; with a cross-reference stream it is 3 + w bytes per number, where w is the number of bytes needed for the position of the stream. A content stream has at most one separator and the cost for every operand and one separator and the operator for every operation (reached for every number of operations in compact output), and at least one byte per operand and its operators.",
 "every value, every history of chunks, every sequence of calls on a Pdf, both layouts",
 "an upper bound for all values and documents; a test measures a few outputs",
 A("src/buf.rs Buf::push_float, Buf::push_int","src/object.rs Str::write, Name::write, TextStr::write, Date::write, Array::drop, Dict::insert, Dict::drop, Stream::drop","src/chunk.rs Chunk::extend, Chunk::renumber_into","src/lib.rs Pdf::finish, Pdf::finish_with_xref_stream"))
p("The text of the pages and of the forms they draw can be found",
 "In a finished document (however it is put together and with either kind of cross-reference), a reader that starts from the trailer and follows every XObject that is drawn - from the page or from another form, at any depth, any number of times - extracts, page by page and in the order of drawing, exactly the text that the shown glyphs stand for: the names of fonts in a form are looked up in the form's own resources, the form starts with the font that is current where it is drawn, and after it the page goes on with the font it had.",
 "every document, page tree, nesting of forms and images, set of fonts and character maps, sequence of calls on every content stream, filter that can be undone, order of objects",
 "the text depends on all content streams, resource dictionaries and character maps of a document together",
 A("src/content.rs Content::x_object, Content::set_font, Content::show, Content::show_positioned","src/xobject.rs FormXObject::resources","src/structure.rs Resources::fonts, Resources::x_objects","src/font.rs UnicodeCmap"))
p("Files have the syntax that archiving asks for",
 "Every finished file, pretty or not and with either kind of cross-reference, follows the byte-level rules of ISO 19005 (PDF/A) clause 6.1 that are about the writer: the header is at offset 0 and ends its line, and a comment with four bytes above 127 follows at once (for the default marker and for every marker with such bytes); nothing follows the last %%EOF; xref and the line of the subsection are separated by one end-of-line marker and its two numbers by one space; every object starts on a new line, has one white-space character between its two numbers and before obj, and an end-of-line marker after obj, before endobj and after endobj; after the keyword stream comes a line feed, before endstream an end-of-line marker, and in between exactly as many bytes as /Length says; every hexadecimal string - in objects, stream dictionaries and the trailer - has an even number of digits and no other characters; the trailer has no /Encrypt. The rules are checked at exactly the objects that a reader finds.",
 "every sequence of calls on Pdf, settings, marker with four bytes above 127, readable object, kind of cross-reference",
 "the rules are about every byte position of every file, and no reader complains about a violation",
 A("src/lib.rs Pdf::set_version, Pdf::set_binary_marker, Pdf::finish, Pdf::finish_with_xref_stream","src/object.rs Str::write, Obj::indirect, Stream::new","src/chunk.rs Chunk::indirect, Chunk::stream"))
p("The limits that are reported bound everything in the file",
 "The limits that Pdf reports (Chunk::limits) bound every value that a reader finds in the finished file, whichever chunks the objects came through: every integer and every reference and object number is at most the reported integer (except -2147483648, whose absolute value does not fit), every real is the decimal text of a float at most the reported real, every name and dictionary key at most as long as the reported name, every string at most as long as reported (a text string at most twice that and two bytes more, a date at most 22), every array and dictionary at most as large as reported, every stream at most as long as the reported integer. The limits that Content::finish reports bound in the same way every operand of every operation that a reader finds in the stream, and limits that are merged into the document, or into a chunk that gets into it, stay below those of the document. So a program that compares the six numbers with the implementation limits of ISO 19005-1 6.1.12 (strings with half of the limit) has a file in which all objects, and all operands of the contents it told the document about, keep to those limits.",
 "every sequence of calls on Pdf, settings, readable object, kind of cross-reference; every sequence of calls on Content; limits merged anywhere in the history of the document or of a chunk in it",
 "a limit is a statement about all values in a file; a missed update shows only for the one document whose largest value goes through that path",
 A("src/buf.rs Limits::merge, Limits::register_int, Limits::register_real, Limits::register_name_len, Limits::register_str_len, Limits::register_array_len, Limits::register_dict_entries","src/chunk.rs Chunk::limits, Chunk::merge_limits, Chunk::extend, Chunk::renumber_into","src/content.rs Content::finish","src/lib.rs Pdf"))
p("The corners of a rectangle describe the rectangle",
 "`Rect::to_quad_points` gives the four corners of the rectangle; the quadrilateral with these corners contains exactly the points of the rectangle (whichever two opposite corners the rectangle was given by, unless it is a line or a point). A reader that starts from the trailer of a finished file finds for every annotation whose quadrilaterals were set to the corners of any number of rectangles as many quadrilaterals, in this order, and each covers exactly the points of its rectangle. The corners are in counterclockwise order, as documented, exactly if the first corner is the lower left or the upper right one; for the other two they are in clockwise order.",
 "every rectangle, list of rectangles, point of the plane, finished document and annotation",
 "a statement about all points and all pairs of corners, in a file",
 A("src/object.rs Rect::to_quad_points","src/annotations.rs Annotation::quad_points","src/buf.rs Buf::push_float"))
p("What is written stays",
 "No call ever changes, moves or removes what an earlier call has written. At every moment while an object is being written (also with shorthands, unused objects, leaked writers and caught panics) the bytes in the buffer are the beginning of what is there at any later moment. The same holds for a chunk under any further operations, and its objects keep their numbers and positions; for a document from its third line on (and for the whole of it unless the version or the marker is set later), also in the finished file with either kind of cross-references and any filter; and for a content stream until it is finished, which takes away at most one line end from the end. So every object can be read from its position as soon as it is complete, and the same is read there later and in the finished file.",
 "every sequence of calls, history of chunks, sequence of operations on a document, moment at which it is interrupted, and every continuation",
 "it is about all pairs of a history and its continuation",
 A("src/buf.rs Buf","src/object.rs Obj, Array, Dict, Stream","src/chunk.rs Chunk","src/lib.rs Pdf","src/renumber.rs renumber","src/content.rs Content, Operation"))
p("Parts can be written separately",
 "A part of a document that is written into a chunk of its own and then added with `extend` gives what the same calls give when they are made in place: the bytes of the whole are those of the first part followed by those of the second, the objects have the same numbers and are found further back by the length of the first part, the limits are the larger of the two, and either both ways panic or neither does. This holds for calls of any kind (objects, streams, nested extends, renumberings into the chunk, merged limits), also with shorthands, unused objects, leaked writers and caught panics, when both chunks have the same settings; and for documents, whose finished files are then the same with either kind of cross-reference section and any filter.",
 "every pair of histories of chunks and every document, with any sequence of calls in the part",
 "it compares two programs for all pairs of histories; separators depend on the last byte written before, so that splitting at a wrong place could show",
 A("src/chunk.rs Chunk::extend, Chunk::indirect, Chunk::renumber_into, Chunk::limits","src/object.rs Obj::primitive, Array::push, Dict::insert, Stream","src/renumber.rs renumber","src/lib.rs Pdf::finish, Pdf::finish_with_xref_stream"))
p("No dictionary has a key twice",
 "The standard leaves open what a reader does with a dictionary in which a key occurs twice, and the library does not check for it. If the calls made on a writer set nothing twice, and the keys inserted with the untyped methods differ from each other and from the keys the writer's own methods and constructor write, then no key occurs twice in the dictionary that is written, and so a reader meets none twice. Conversely, if no key occurs twice, nothing was set twice. `setting` is by the method, except that methods that write the same entry in different forms (such as `contents` and `contents_array`) set the same thing, and four pairs of methods which set different things write the same key: `lock_document` and `appearance_filter`, `signature_policy_hash_algorithm` and `signature_policy_commitment_type`, `annot_page_close` and `annot_page_visible`, `page_close` and `form_calculate`; for these the claim without the exception is refuted. One theorem for each of 74 writers (dictionaries and streams, where the entry `/Length` and the methods of `Stream` are included, and the role and class maps, where the keys are arguments); the conversions `into_annotation` and `artifact` are outside.",
 "every dictionary and stream writer of the library named in the theorems, every sequence of calls on it, in any order and number, with any arguments, mixed with untyped entries",
 "the keys are spread over hundreds of methods, and the claim is about every subset of them, in every order; a test sees one sequence of calls",
 A("src/object.rs Dict::insert, Stream","src/structure.rs","src/annotations.rs","src/forms.rs","src/font.rs","src/content.rs","src/actions.rs","src/xobject.rs","src/functions.rs","src/transitions.rs","src/attributes.rs","src/files.rs","src/renditions.rs"))
json_lines="\n".join(json.dumps(x) for x in P)+"\n"
open('/verif/properties.jsonl','w').write(json_lines)
print(len(P))
