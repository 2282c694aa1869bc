# Formal model of typst/pdf-writer in Rocq (Coq 8.16.1)

`properties.jsonl` has the list of properties, `MANIFEST.json` the theorems that carry
them, `seeded/LOG.jsonl` the wrong programs the theorems were tested against.

## Approach

* **Model** (`rocq/theories/Model*.v`): total, computable Gallina functions, one per Rust
  function, each with a comment citing file and lines in `/repo`.  A Rust `&mut Buf`
  argument becomes a `buf -> buf` function.  Panics are explicit (`option`/`None`).
  `u8` is the standard library's `Byte.byte`, so "any byte string" is literally
  `forall s : list byte`.  `i32` is `Z` with a range predicate and explicit wrap-around
  where the code can overflow; `usize` quantities (buffer lengths) are unbounded
  integers except where the code depends on their width; `f32` is an inductive type of
  (sign, mantissa, exponent) with a boolean validity predicate.
* **Specification** (`rocq/theories/Spec*.v`): what a PDF reader does, written from
  ISO 32000 and not from the code: a lexer, an object parser, a text string decoder, a
  date grammar, a cross-reference reader that starts at `startxref`, a content stream
  parser, a CMap decoder, a walk of the page tree, ...  The theorems say that the reader
  applied to the writer's bytes gives back what the API caller put in.
* **Proofs** (`rocq/theories/Proof*.v`) and **properties** (`rocq/theories/Prop*.v`:
  the theorems named `Cnn_*`, with an `Example` beside them that a concrete case meets
  the hypotheses, and `Print Assumptions`).

`Conform.v` replays every unit test of `/repo` (and two of its example programs) on the
model: the expected bytes are those in the tests.  They are tests of the model, not
claims.

An API *history* is modelled as data: an object tree for nested writers (Rust's borrow
checker forces well-bracketed use of `Obj`/`Array`/`Dict`, so a tree is exactly a
history), a tree of chunk operations for `Chunk` (`hist`: chunks can be extended with
and renumbered into other chunks), a list of `Pdf` calls for `Pdf`, a list of calls for
`Content` and for each of the typed writers, etc.

A theorem whose name ends in `_refuted` says that a natural reading of the property is
false of the code, with a concrete witness; the theorems beside it prove what does hold,
usually as an equivalence.  No theorem is `_partial` at the moment.

### Files

| subject | model | specification | properties |
|---|---|---|---|
| buffers, limits, numbers | ModelBuf, ModelFloat | SpecLex, SpecText | PropPrim (C01-C10), PropLimits, PropLimits2 (C20-C22; SpecLimits) |
| objects, arrays, dictionaries | ModelObject, ModelApi | SpecObj, SpecMeans, SpecStyle, SpecApi | PropTree (C11-C14), ProofSepar, PropSepar (C09, C13), PropDefaults (C12), PropApi (C61) |
| chunks, streams | ModelChunk | SpecChunk | PropChunk (C15-C19) |
| renumbering | ModelRenumber | SpecRenum | PropRenum, PropRenum2, PropInto (C31-C34) |
| files, cross-references | ModelPdf | SpecFile, SpecPdf | PropPdf (C23-C26), PropPdf2 (C27-C30) |
| content streams | ModelContent | SpecContent | PropContent (C35-C37, C49), PropSepar2 (C35), PropInPlace (C36), PropGuards (C44) |
| CMaps, PostScript | ModelCmap, ModelPs | SpecCmap, SpecPs | PropCmap (C38), PropPs, PropPs2 (C39) |
| color spaces, small writers | ModelColor, ModelSmall | SpecTyped, SpecColor, SpecSmall | PropColor (C40), PropSmall, PropSmall2 (C41, C45-C47) |
| enums, roles | ModelEnums, ModelRoles | SpecEnums, SpecRoles | PropEnums (C43), PropRoles (C42) |
| typed writers | ModelTw, ModelTwArgs, ModelTw{Files,Graphics,Annot,Forms,Attr,XObj,Fonts,Doc}, ModelFontDesc | SpecTw* | PropTw* , PropFontDesc (C44, C48, C50-C56) |
| Text extraction | ModelDoc, ModelContent, ModelCmap | SpecExtract | PropExtract (C64) |
| Attachments, bookmarks, labels, links | ModelDoc | SpecNav | PropNav (C65-C68) |
| Tagged documents | ModelDoc, ModelContent | SpecViews, SpecTagged | PropTagged (C69, C70) |
| Painting | ModelDoc, ModelContent | SpecPaint | PropPaint (C71) |
| Form fields | ModelDoc, ModelTwForms | SpecForm | PropForm (C72) |
| Annotations and appearances | ModelDoc, ModelTwAnnot | SpecAppear | PropAppear (C73) |
| Document properties | ModelDoc, ModelTwDoc, ModelPdf | SpecInfo | PropInfo (C74) |
| Page geometry | ModelDoc, ModelTwDoc | SpecSizes | PropSizes (C75) |
| Fonts and glyphs | ModelDoc, ModelTwFonts, ModelFontDesc | SpecGlyphs | PropGlyphs (C76) |
| Assembled documents as documents | ModelPart, ModelDoc | SpecRename, SpecAssembled | ProofRename, ProofAssembled, PropAssembled (C77) |
| Pdf as a chunk | ModelMerge | SpecMerge | ProofMerge, PropMerge, PropMerge2 (C78) |
| Caught panics | ModelCrash | SpecCrash | ProofCrash, PropCrash (C79) |
| Names and lookups | (as above) | SpecNames | PropNames (C80) |
| Operations call by call | ModelOps | SpecOps | PropOps (C81) |
| Functions | ModelDoc, ModelTwGraphics, ModelPs | SpecFunctions | PropFunctions (C82) |
| Colors, patterns, graphics states | ModelDoc, ModelColor, ModelTwGraphics | SpecColors | PropColors (C83) |
| Actions and events | ModelDoc, ModelTwAnnot | SpecActions | PropActions (C84) |
| Presentation | ModelDoc, ModelTwDoc, ModelTwGraphics | SpecPresent | PropPresent (C85) |
| XObjects | ModelDoc, ModelTwXObj, ModelTwFiles | SpecImages | PropImages (C86) |
| Attributes of elements | ModelDoc, ModelTwAttr | SpecAttrs | PropAttrs (C87) |
| Annotations, details | ModelDoc, ModelTwAnnot | SpecMarks | PropMarks (C88) |
| Fields, details | ModelDoc, ModelTwForms | SpecFields | PropFields (C89) |
| Fonts, details | ModelDoc, ModelTwFonts, ModelFontDesc | SpecFaces | PropFaces (C90) |
| Ways back | ModelDoc, ModelTwDoc | SpecBack | PropBack (C91) |
| Marked content | ModelDoc, ModelContent, ModelTwGraphics | SpecMarked | PropMarked (C92) |
| Reading a file through | ModelPdf, ModelChunk | SpecSerial | PropSerial (C93) |
| Parameters of graphics states, shadings, patterns | ModelTwGraphics | SpecStates | PropStates (C94) |
| Drawings of Type 3 glyphs | ModelTwFonts, ModelContent | SpecType3 | PropType3 (C95) |
| Leaked writers, damaged sources | ModelLeak | SpecLeak | ProofLeak, PropLeak (C96) |
| Replaced and swapped chunks | ModelSwap | SpecSwap | ProofSwap, PropSwap (C97) |
| Same document, same file | (ModelPdf) | SpecSame | ProofSame, PropSame (C98) |
| A file cut short | (ModelPdf) | SpecCut | ProofCut, ProofCut2, ProofCut3, PropCut (C99) |
| Streams by keyword | (ModelPdf) | SpecKeyword | ProofKeyword, PropKeyword, PropKeyword2 (C100) |
| Sizes of outputs | (ModelPdf) | SpecCost | ProofCost, ProofCost2, PropCost, PropCost2 (C101) |
| Text in forms | (ModelDoc, ModelContent) | SpecSearch | PropSearch (C102) |
| Archival syntax | (ModelPdf) | SpecArchive | ProofArchive, PropArchive (C103) |
| Limits of a file | (ModelPdf, ModelContent) | SpecWithin | ProofWithin, PropWithin (C104) |
| Rectangles as quadrilaterals | ModelObject (`to_quad_points`) | SpecCorners | PropCorners (C105) |
| What is written stays | ModelApi, ModelLeak, ModelChunk, ModelPdf, ModelOps | SpecGrow | PropGrow (C106) |
| Parts can be written separately | ModelChunk, ModelApi, ModelLeak, ModelPdf | SpecOnto | PropOnto (C107) |
| No dictionary has a key twice | ModelTw* (all writers) | SpecOnce | PropOnce (C108) |
| i32 arithmetic | ModelOverflow | SpecOverflow | PropOverflow (C63) |
| whole documents | ModelDoc, ModelPart | SpecDoc, SpecPages, SpecPart, SpecMerged | PropDoc (C57), PropPages (C58), PropPart (C59, C60), PropMerged (C62) |

`gen/` has the Python scripts that wrote the most repetitive tables from the sources
(`gen_enums.py`, `gen_roles.py`, `gen_writers.py` with `writers_hand.py`, `gen_doc.py`).
The generated Coq files are committed; the scripts are not part of the build or of the
trusted base.  In the generated specifications, the dictionary keys and enum names come
from tables transcribed from ISO 32000 (`gen/iso_tables.py`, `gen/writers_hand.py`),
not from the bodies of the Rust functions; this is how the findings 11, 12, 25, 26 and
27 below came out.

## Plan and method per property

C01 model `push_int`; spec: decimal lexer; induction over digits.
C02-C04 model `push_float`/`push_decimal`; `ryu` and `std::fmt` (dependencies) are
  modelled by what they document: the shortest decimal that rounds to the value (an executable search). Proved in
  integer arithmetic that the nearest f32 of the printed decimal is the value, for
  every finite f32 (hence every bit pattern); NaN and infinities refuted.
C05-C07 model `Str::write`, `Name::write`; spec: lexer for literal strings, hex strings, names; induction over the bytes.
C08-C09 model `TextStr`, `TextStrWithLang` over lists of scalar values; spec: UTF-16 and PDFDocEncoding decoder.
C10 model the `Date` builder and writer; spec: date parser; all sequences of builder calls.
C11-C14 model `Obj/Array/Dict` and trees; spec: lexer and parser; nested induction on trees, for any surrounding bytes.
C15-C16 model `Stream`; spec: parse the dictionary, use /Length, check keywords.
C17-C19 model `Chunk` operations; induction over histories.
C20-C22 model `Limits`; lattice laws; independently defined measures on trees.
C23-C28 model `write_offsets` and both cross-reference writers; spec: reader from `startxref`, free list walker. C28 is an equivalence plus a refuted case.
C29-C30 model `Pdf` histories and `finish*`; whole-file theorems.
C31-C34 model `renumber.rs` function by function; scanning lemmas over written trees; totality for arbitrary bytes.
C35-C37, C49 model `Content`, `Operation`; token sequences over lists of calls; operator tables written from the standard.
C38 model `UnicodeCmap`; spec: a reader of `bfchar` sections.
C39 model `PostScriptOp`; spec: parser; induction over nested programs.
C40 model `Separation`, `DeviceN`, `IccProfile` and the other color spaces as state machines.
C41, C45-C47 model the small writers; inductive proofs with readers from the standard.
C42, C43 exhaustive over the finite enums (all variants; roles with parameters for all parameters).
C44 every setter with an `assert!`/`expect`: panics exactly outside the documented range.
C48, C50-C56 each typed writer as a list of calls; the object that results reads back as exactly the
  fixed entries and those of the calls, with keys and values from the standard.
C57 all typed constructors of `Chunk` and `Pdf` in any order; combines C50-C56 with C23/C27.
C58 a reader from the trailer to the operations of every page; combines C57 with C35/C36; induction over page trees.
C59 trees of `extend`/`renumber_into` over typed objects; a consistent stateful closure acts as a function on the ids that occur; induction over assembly trees, then C23/C27.
C60 the documented closure as a state machine over an association list; invariant on the table; induction over the ids.
C61 the writers as a machine with a stack of open writers, one step per call; invariant relating stack, calls so far and buffer to partial trees; this justifies modelling histories as trees everywhere else.
C62 the reader of C58 over the documents of C59: the page tree is described by the renamed references; walk by induction over the tree.
C63 ModelOverflow against the main model: the relation "panics iff bad, otherwise equal" is carried through the writers by induction; what is too long is longer than 2 GiB.
C64 SpecExtract: a reader from the trailer to the text of each page; simulation between the calls and the parsed operations (C58), fonts and character maps by C57, C53 and C38.
C65-C68 SpecNav: readers from the trailer to the embedded files, the bookmarks, the page labels and the links; induction over the name/number/page trees and the outline, objects by C57.
C69-C70 SpecViews, SpecTagged: readers for pages with inherited resources, marked content and the structure tree; induction over the trees, simulation for the stack of marked content; objects by C57.
C71 SpecPaint: a machine for the graphics state, run on the parsed operations and on the calls; simulation between both runs, induction over the tree of XObjects.
C72 SpecForm: a reader of the field tree with inherited attributes; induction over the tree, each field's dictionary by the theorems of its writer.
C73 SpecAppear: a reader of annotations that selects the appearance stream by the state and runs the machine of C71 on it.
C74 SpecInfo: a reader of the header line, the trailer's ID and Info and the catalog; the program's side takes the last call of each kind.
C75 SpecSizes: a reader that passes the inheritable attributes down the page tree and applies the defaults; induction on the tree.
C76 SpecGlyphs: a reader of the fonts in the pages' resources, with widths, glyph names and procedures as functions of the code or name.
C77 SpecRename (generated): a renaming of the references among the arguments of every typed call; SpecAssembled: the calls on the document itself that an assembled program amounts to; finished_document (SpecNav) covers assembled documents, so C65-C76 hold for them.
C78 SpecMerge: the chunk history of the same calls; the two run in step (same placed items after different prefixes), renumbering only sees the placed items; finishing a Pdf extended by a Pdf re-uses the reader of C23 with the shifted offsets.
C79 SpecCrash: the items and damaged ids a history with panics leaves; the buffer is described as segments, each one a complete item or damaged bytes, with one offset per segment; the reader of C23 starts at an offset, so a damaged segment does not disturb the others.
C80 SpecNames: readers for the name dictionary and for one-path lookup; the tree walk of C65 and, for lookup, induction on the tree with the limits separating the kids.
C81 SpecOps: operands so far; the stack of writers of C61 below an operation; unwinding is dropping (C79); then C36 for reading back.
C82 SpecFunctions: a reader of functions by type, recursive over stitching; induction over the tree of functions, C39 for the programs.
C83 SpecColors: a reader of the four categories of the resources of every page, with C82 for functions and the machine of C71 for tiles and masks; induction over alternate spaces.
C84 SpecActions: readers of the additional actions of catalog, pages, annotations and fields; equalities with what was asked; induction over the form.
C85 SpecPresent: readers of the catalog's and the pages' entries for showing and printing; equalities (numbers and color spaces up to how they read) with what was asked.
C86 SpecImages: a reader of the XObject resources that follows masks, color spaces, parameters and the resources of forms; related to what was asked by induction over the nesting.
C87 SpecAttrs: a reader of attribute objects by their owner, of the class map, the identifiers and namespaces; related to the calls part by part; elements in document order by induction over the structure tree.
C88 SpecMarks: a reader of the entries of annotations, related part by part to the calls on annotations and on fields made annotations.
C89 SpecFields: a reader of field trees with inheritance, and of the objects that signature fields refer to, related part by part to the calls; by induction on the field tree.
C90 SpecFaces: a reader of fonts and of the trees of font descriptors, related part by part to the calls; by induction on the descriptor tree.
C91 SpecBack: a reader that follows Last and Prev, and one that follows Parent; by induction on the number of items and on the page tree.
C92 SpecMarked: a reader with a stack of open sequences, and a grammar of the calls; by induction on the grammar.
C93 SpecSerial: a second reader that scans the file once; by induction on the placed items, with the positions of ProofChunk.
C94 SpecStates: a reader of every parameter into a record; each entry located by the list of calls given for its key; categories as in C83.
C95 SpecType3: the painting interpreter of C71 run on each glyph procedure with the font's or the page's resources.
C96 ModelLeak: the calls of ModelApi with a step that removes a writer without its drop; segments of whole and damaged objects as in C79, for which the renumbering loop is proved to keep the whole ones.
C97 ModelSwap: mutually inductive histories of chunks and Pdfs; a layout of objects and headers, by mutual induction; the renumbering loop is proved for sources with headers between objects.
C98 no new model: the layout of a uniform history is a function of its items, so that two histories with the same items have the same bytes and offsets; the converse from the sequential parse of the body and the cross-reference theorems C23, C27, C29.
C99 no new model: reading a byte string and reading a longer one that begins with it are compared token by token (ProofCut), object by object (ProofCut2) and through the file (ProofCut3); with C93 this gives what is left of a cut file.
C100 no new model: a second reader (SpecKeyword) that finds the end of a stream by its keyword; the two are compared object by object (ProofKeyword, with the section of ProofCut2 that is generic in how data is found) and through the file.
C101 no new model: a cost function on values (SpecCost); the digits of a real are bounded with the rounding interval (ProofCost), the rest by induction on values (ProofCost2) and with the layout of chunks and files.
C102 no new model: the reader of C64 with Do followed (SpecSearch), proved by induction on the nesting of the forms with the lemmas of C64, C70 and C71.
C103 no new model: the rules are predicates on the bytes of the file (SpecArchive), proved from the layout of C93 and C100; the lexer is followed once more with the shape of hexadecimal strings in hand (ProofArchive).
C104 no new model: `within` is a predicate on the values that the reader of SpecObj and SpecContent returns; the limit of every object (C20) is carried through the run of the document by the twin chunk of C78, the limits of a content by induction over its calls. The trailer and the cross-reference stream, which finish writes itself, are not objects of the document and not covered.
C105 spec: signed areas of triangles over exact coordinates; a point is in a quadrilateral if it is on the same side of all edges. The document part follows from C88.
C106 by induction over the calls, histories and operations: each function of the model only extends the buffer, and `set_version` and `set_binary_marker` overwrite bytes among the first 16.
C107 by induction over the calls of the part, with the relation that the one buffer is the other one after a fixed prefix; separators look at the last byte only after the header of the object is written, which is the same in both.
C108 by a general lemma on writers: if every method's entries have the keys that a table gives to what it sets, and the table is one to one and avoids the constructor's keys, then the keys are different when what is set is; the table is checked for each writer by cases on the method.

## Findings

Disagreements between the code and the property one would expect (each with a `_refuted`
theorem, unless noted; `/repo` is unchanged):

1. In compact mode an empty `Name` runs into the token that follows (C13, C35).
2. In cross-reference streams the width of the second field is chosen from the offset of
   the stream only; next-free object numbers that do not fit are truncated (C28).
3. `i32::MIN` is registered as limit 0 in release builds (`abs` wraps; it panics in debug builds) (C22).
4. The f32 2^31 is written as 2147483647 (C03).
5. NaN and infinities are written as words that are not PDF numbers (C04).
6. For text strings the UTF-8 length is registered as string limit, which is less than
   the written UTF-16 string; dates are not registered (C22).
7. `StructRole::RP.into_pdf_2_0()` gives `WP` (C42).
8. `Ref::next`/`bump` and the table size overflow at id `i32::MAX` (C45, C29).
9. Entries of the plain table have 20 bytes only for offsets below 10^10 (hypothesis of C23 ff.); a file with
   an object beyond that cannot be opened (`C23_large_file_refuted`).
10. `UnicodeCmap` writes the bytes of the name raw into `%%` comment lines: a name with a
    line break injects tokens (C38).
11. `AdditionalActions::annot_page_close` writes the key `PV` of `annot_page_visible`... (C48).
12. `SignatureSeedValue::appearance_filter` writes `LockDocument`;
    `signature_policy_commitment_type` writes `SignaturePolicyHashAlgorithm` (C52).
13. `Chunk::renumber` does not inherit the settings of its source (C33 says what holds).
14. `NameTree::limits` takes names, whose limits must be strings (C46).
15. `renumber` validates an `R` against the whole preceding text, comments included (C34
    says what holds for arbitrary bytes; for chunks written with the API C31 is exact).
16. A user can insert a second `/Length` into a stream dictionary (not refuted; C15 is about the first).
17. After renumbering, the limits are those of the source (integers written as ids are not registered at all).
18. A compact content stream may start with a space (harmless).
19. `PostScriptOp::Real` of 10^12 and above is written without a period and reads as an integer (C39).
20. `Separation` accepts a second tint and `DeviceN` repeated attributes (C40).
21. `DeviceNAttrs::colorants` writes dictionaries where color spaces are required (C40).
22. (minor) The sRGB matrix has 0.715 for 0.7152; the `display_p3` matrix has 0.2297 for
    0.2290 (white is off by 7.3e-4), and its gamma is 2.6 (`C40_predefined_numbers`, `C40_white_errors`).
23. `TilingPattern::x_step`/`y_step` accept NaN (C44_tiling_pattern says so).
24. `Differences::consecutive` may run past code 255 (C47 reads codes beyond 255).
25. `Transition::opaque` writes /F, a number, for the flag /B (C50).
26. The `*_color_cymk` setters write cyan, yellow, magenta, black (C51).
27. `ExtGraphicsState::font` writes a name where a reference is required (C55).
28. Content streams do not end with white space, so that a strict concatenation of the
    streams of a `Contents` array (as PDF 1.7 can be read) would run tokens together
    (`C36_split_needs_white_space`; C58 uses the PDF 2.0 rule).
29. An `Obj` that is dropped unused (`must_use`, but only a warning) is counted as an item and
    breaks a dictionary (`C61_abandoned_refuted`).
30. Release builds: the items of an array with 2^32 + 1 items run together, a string of 2^32 opening parentheses
    is written without escapes and does not end (C63; academic).
31. `Namespace::pdf_2_ns`, `pdf_1_7_ns` and `mathml_3_0_ns` write `https://www.iso.org/pdf2/ssn`, `https://www.iso.org/pdf/ssn` and
    `https://www.w3.org/1998/Math/MathML`; ISO 32000-2 (14.8.6) has `http://iso.org/pdf2/ssn`, `http://iso.org/pdf/ssn` and
    `http://www.w3.org/1998/Math/MathML` (C69).
32. `Field::choice_value(None)` ("if no choice is selected") writes `/V null`, which means the same as no entry: below a field with a
    value, the field inherits that value (C72, `C72_case`).
33. `Pdf::set_version` checks its two numbers one by one: `set_version(10, 4)` after `set_version(2, 0)` leaves a header that says 2.4, a
    version nobody asked for (C74, `C74_case`).
34. `Pdf::set_binary_marker` accepts line ends, which end the comment early: what follows is read as tokens by a reader that
    goes through the file (C93, `C93_marker_refuted`).
35. `Pdf` implements `DerefMut`, but its header lives in the chunk: `*pdf = chunk` loses it (`C97_header_lost_refuted`), and
    `set_version`/`set_binary_marker` then overwrite bytes of the first object, or panic (`C97_version_overwrites_refuted`).

## Trusted base

* Coq's kernel (8.16.1), checked again by `coqchk` in `vcheck`.
* `Print Assumptions` says "Closed under the global context" for every theorem in
  `MANIFEST.json`: no axioms, neither ours nor the standard library's.  (`vcheck` also lists
  the parameters of the module types of `Coq.ssr.ssrunder`, which are loaded with
  the standard library; no theorem uses them.)
* That the model is what the code does: see the next section.
* That the specifications are what the standard says.

### What is modelled

All of `src/`: `buf.rs`, `object.rs`, `chunk.rs`, `renumber.rs`, `lib.rs`, `content.rs`,
`font.rs`, `color.rs`, `functions.rs`, `structure.rs`, `attributes.rs`, `annotations.rs`,
`actions.rs`, `forms.rs`, `files.rs`, `renditions.rs`, `transitions.rs`, `xobject.rs`,
function by function, with the simplifications below.

### Simplifications, and what is not modelled

* Dependencies by their documented behaviour: `itoa` (decimal digits), `ryu` and
  `std::fmt` for floats (shortest decimal that rounds to the value), `memchr`
  (first occurrence), `bitflags` (sets of declared flags only), `Vec`, `String`, `sort_by_key`
  (a stable sort), `char`/UTF-16 encoding.
* Allocation never fails; `usize`/`Vec` lengths are unbounded integers, except in
  cross-reference streams where 64 bits matter; `capacity`/`reserve` have no effect.
* In the main model the i32 counters of arrays and dictionaries and of parentheses are unbounded, and `abs` wraps as in
  release builds.  ModelOverflow repeats the writers, renumbering and `finish` with every i32 operation explicit, in debug and
  in release builds; C63 says exactly when they differ from the main model (never below 2 GiB, except that debug builds panic on
  `i32::MIN` and on the object number `i32::MAX`).
* NaN payloads are ignored.
* A tree of calls is a complete history.  Drops during unwinding, and so also an `Obj` or a place that is never filled, are the
  subject of ModelCrash (C79); `mem::forget` of a writer that of ModelLeak (C96).
* `Pdf` derefs to `Chunk` (C78); replacing the whole chunk through `DerefMut` (`*pdf = chunk`) is the subject of ModelSwap (C97).
* Some methods consume a writer and return another (`Action::..`, `FontDescriptor` into its override,
  `Annotation` into a form field, ...): modelled as a call that carries the list of calls on the new writer.
* Raw `Dict`/`Stream` access through `Deref` is modelled for every typed writer (the
  calls `Raw`), except for the array writers `Differences` and `Widths`: what is pushed to them through `Deref` gives the same bytes
  as a raw entry with the whole array.  Name and number trees and output intents have no raw access in the code either.
* `Debug` implementations, `Clone`, hashing and ordering of `Ref` etc. are not modelled.
