(** Specification: the tables of ISO 32000-2:2020 (and 32000-1 where noted) for the enum and flag arguments.
    They are the reader's tables: from what is in the file to what it means. *)

From Coq Require Import ZArith List Bool.
From Verif Require ModelContent ModelCmap.
From Verif Require Import Bytes ModelFloat ModelBuf ModelObject ModelTw ModelEnums SpecLex SpecObj SpecMeans SpecTyped SpecColor SpecTw.
Import ListNotations.
Local Open Scope Z_scope.

(** Looking up a name or a number. *)
Fixpoint by_name {E} (n : bytes) (table : list (bytes * E)) : option E :=
  match table with [] => None | (m, x) :: r => if bytes_eqb n m then Some x else by_name n r end.
Fixpoint by_number {E} (n : Z) (table : list (Z * E)) : option E :=
  match table with [] => None | (m, x) :: r => if n =? m then Some x else by_number n r end.
Definition is_named {E} (table : list (bytes * E)) (x : E) (v : val) : Prop := exists n, v = VName n /\ by_name n table = Some x.
Definition is_str_of {E} (table : list (bytes * E)) (x : E) (v : val) : Prop := exists n, v = VStr n /\ by_name n table = Some x.
Definition is_numbered {E} (table : list (Z * E)) (x : E) (v : val) : Prop := exists n, v = VInt n /\ by_number n table = Some x.

(** Table 201. *)
Definition ActionType_table : list (bytes * ActionType) := [
  (lit "GoTo", ActionType_GoTo); (lit "GoToR", ActionType_RemoteGoTo); (lit "Launch", ActionType_Launch);
  (lit "URI", ActionType_Uri); (lit "Rendition", ActionType_Rendition);
  (lit "SubmitForm", ActionType_SubmitForm); (lit "ResetForm", ActionType_ResetForm);
  (lit "ImportData", ActionType_ImportData); (lit "JavaScript", ActionType_JavaScript)
  ].
Definition is_ActionType (x : ActionType) (v : val) : Prop := is_named ActionType_table x v.

(** Table 171. *)
Definition AnnotationType_table : list (bytes * AnnotationType) := [
  (lit "Text", AnnotationType_Text); (lit "Link", AnnotationType_Link); (lit "Line", AnnotationType_Line);
  (lit "Square", AnnotationType_Square); (lit "Circle", AnnotationType_Circle);
  (lit "Highlight", AnnotationType_Highlight); (lit "Underline", AnnotationType_Underline);
  (lit "Squiggly", AnnotationType_Squiggly); (lit "StrikeOut", AnnotationType_StrikeOut);
  (lit "FileAttachment", AnnotationType_FileAttachment); (lit "Screen", AnnotationType_Screen);
  (lit "Widget", AnnotationType_Widget)
  ].
Definition is_AnnotationType (x : AnnotationType) (v : val) : Prop := is_named AnnotationType_table x v.

(** Tables 175 and 187. *)
Definition AnnotationIcon_table : list (bytes * AnnotationIcon) := [
  (lit "Comment", AnnotationIcon_Comment); (lit "Key", AnnotationIcon_Key);
  (lit "Note", AnnotationIcon_Note); (lit "Help", AnnotationIcon_Help);
  (lit "NewParagraph", AnnotationIcon_NewParagraph); (lit "Paragraph", AnnotationIcon_Paragraph);
  (lit "Insert", AnnotationIcon_Insert); (lit "Graph", AnnotationIcon_Graph);
  (lit "PushPin", AnnotationIcon_PushPin); (lit "Paperclip", AnnotationIcon_Paperclip);
  (lit "Tag", AnnotationIcon_Tag)
  ].
Definition is_AnnotationIcon (x : AnnotationIcon) (v : val) : Prop :=
  match x with AnnotationIcon_Custom n => v = VName n | _ => is_named AnnotationIcon_table x v end.
Definition AnnotationIcon_ok (x : AnnotationIcon) : bool := match x with AnnotationIcon_Custom n => name_ok n | _ => true end.

(** Table 250, SW. *)
Definition IconScale_table : list (bytes * IconScale) := [
  (lit "A", IconScale_Always); (lit "B", IconScale_Bigger); (lit "S", IconScale_Smaller);
  (lit "N", IconScale_Never)
  ].
Definition is_IconScale (x : IconScale) (v : val) : Prop := is_named IconScale_table x v.

(** Table 250, S. *)
Definition IconScaleType_table : list (bytes * IconScaleType) := [
  (lit "A", IconScaleType_Anamorphic); (lit "P", IconScaleType_Proportional)
  ].
Definition is_IconScaleType (x : IconScaleType) (v : val) : Prop := is_named IconScaleType_table x v.

(** Table 176, H. *)
Definition HighlightEffect_table : list (bytes * HighlightEffect) := [
  (lit "N", HighlightEffect_None); (lit "I", HighlightEffect_Invert); (lit "O", HighlightEffect_Outline);
  (lit "P", HighlightEffect_Push)
  ].
Definition is_HighlightEffect (x : HighlightEffect) (v : val) : Prop := is_named HighlightEffect_table x v.

(** Table 168, S. *)
Definition BorderType_table : list (bytes * BorderType) := [
  (lit "S", BorderType_Solid); (lit "D", BorderType_Dashed); (lit "B", BorderType_Beveled);
  (lit "I", BorderType_Inset); (lit "U", BorderType_Underline)
  ].
Definition is_BorderType (x : BorderType) (v : val) : Prop := is_named BorderType_table x v.

(** Table 378, Placement. *)
Definition Placement_table : list (bytes * Placement) := [
  (lit "Block", Placement_Block); (lit "Inline", Placement_Inline); (lit "Before", Placement_Before);
  (lit "Start", Placement_Start); (lit "End", Placement_End)
  ].
Definition is_Placement (x : Placement) (v : val) : Prop := is_named Placement_table x v.

(** Table 378, WritingMode. *)
Definition WritingMode_table : list (bytes * WritingMode) := [
  (lit "LrTb", WritingMode_LtrTtb); (lit "RlTb", WritingMode_RtlTtb); (lit "TbRl", WritingMode_TtbRtl)
  ].
Definition is_WritingMode (x : WritingMode) (v : val) : Prop := is_named WritingMode_table x v.

(** Table 378, TextAlign. *)
Definition TextAlign_table : list (bytes * TextAlign) := [
  (lit "Start", TextAlign_Start); (lit "Center", TextAlign_Center); (lit "End", TextAlign_End);
  (lit "Justify", TextAlign_Justify)
  ].
Definition is_TextAlign (x : TextAlign) (v : val) : Prop := is_named TextAlign_table x v.

(** Table 378, BlockAlign. *)
Definition BlockAlign_table : list (bytes * BlockAlign) := [
  (lit "Before", BlockAlign_Before); (lit "Middle", BlockAlign_Middle); (lit "After", BlockAlign_After);
  (lit "Justify", BlockAlign_Justify)
  ].
Definition is_BlockAlign (x : BlockAlign) (v : val) : Prop := is_named BlockAlign_table x v.

(** Table 378, InlineAlign. *)
Definition InlineAlign_table : list (bytes * InlineAlign) := [
  (lit "Start", InlineAlign_Start); (lit "Center", InlineAlign_Center); (lit "End", InlineAlign_End)
  ].
Definition is_InlineAlign (x : InlineAlign) (v : val) : Prop := is_named InlineAlign_table x v.

(** Table 378, TextPosition. *)
Definition LayoutTextPosition_table : list (bytes * LayoutTextPosition) := [
  (lit "Sup", LayoutTextPosition_Superscript); (lit "Sub", LayoutTextPosition_Subscript);
  (lit "Normal", LayoutTextPosition_Normal)
  ].
Definition is_LayoutTextPosition (x : LayoutTextPosition) (v : val) : Prop := is_named LayoutTextPosition_table x v.

(** Table 379, TextDecorationType. *)
Definition TextDecorationType_table : list (bytes * TextDecorationType) := [
  (lit "None", TextDecorationType_None); (lit "Underline", TextDecorationType_Underline);
  (lit "Overline", TextDecorationType_Overline); (lit "LineThrough", TextDecorationType_LineThrough)
  ].
Definition is_TextDecorationType (x : TextDecorationType) (v : val) : Prop := is_named TextDecorationType_table x v.

(** Table 379, RubyAlign. *)
Definition RubyAlign_table : list (bytes * RubyAlign) := [
  (lit "Start", RubyAlign_Start); (lit "Center", RubyAlign_Center); (lit "End", RubyAlign_End);
  (lit "Justify", RubyAlign_Justify); (lit "Distribute", RubyAlign_Distribute)
  ].
Definition is_RubyAlign (x : RubyAlign) (v : val) : Prop := is_named RubyAlign_table x v.

(** Table 379, RubyPosition. *)
Definition RubyPosition_table : list (bytes * RubyPosition) := [
  (lit "Before", RubyPosition_Before); (lit "After", RubyPosition_After);
  (lit "Warichu", RubyPosition_Warichu); (lit "Inline", RubyPosition_Inline)
  ].
Definition is_RubyPosition (x : RubyPosition) (v : val) : Prop := is_named RubyPosition_table x v.

(** Table 382, ListNumbering. *)
Definition ListNumbering_table : list (bytes * ListNumbering) := [
  (lit "None", ListNumbering_None); (lit "Unordered", ListNumbering_Unordered);
  (lit "Description", ListNumbering_Description); (lit "Disc", ListNumbering_Disc);
  (lit "Circle", ListNumbering_Circle); (lit "Square", ListNumbering_Square);
  (lit "Ordered", ListNumbering_Ordered); (lit "Decimal", ListNumbering_Decimal);
  (lit "UpperRoman", ListNumbering_UpperRoman); (lit "LowerRoman", ListNumbering_LowerRoman);
  (lit "UpperAlpha", ListNumbering_UpperAlpha); (lit "LowerAlpha", ListNumbering_LowerAlpha)
  ].
Definition is_ListNumbering (x : ListNumbering) (v : val) : Prop := is_named ListNumbering_table x v.

(** Table 383, Role. *)
Definition FieldRole_table : list (bytes * FieldRole) := [
  (lit "rb", FieldRole_RadioButton); (lit "cb", FieldRole_CheckBox); (lit "pb", FieldRole_Button);
  (lit "tv", FieldRole_TextField); (lit "lb", FieldRole_ListBox)
  ].
Definition is_FieldRole (x : FieldRole) (v : val) : Prop := is_named FieldRole_table x v.

(** Table 383, Checked. *)
Definition FieldState_table : list (bytes * FieldState) := [
  (lit "on", FieldState_Checked); (lit "off", FieldState_Unchecked); (lit "neutral", FieldState_Neutral)
  ].
Definition is_FieldState (x : FieldState) (v : val) : Prop := is_named FieldState_table x v.

(** Table 384, Scope. *)
Definition TableHeaderScope_table : list (bytes * TableHeaderScope) := [
  (lit "Row", TableHeaderScope_Row); (lit "Column", TableHeaderScope_Column);
  (lit "Both", TableHeaderScope_Both)
  ].
Definition is_TableHeaderScope (x : TableHeaderScope) (v : val) : Prop := is_named TableHeaderScope_table x v.

(** Table 386, NoteType. *)
Definition NoteType_table : list (bytes * NoteType) := [
  (lit "Footnote", NoteType_Footnote); (lit "Endnote", NoteType_Endnote); (lit "None", NoteType_None)
  ].
Definition is_NoteType (x : NoteType) (v : val) : Prop := is_named NoteType_table x v.

(** Table 401, S. *)
Definition OutputIntentSubtype_table : list (bytes * OutputIntentSubtype) := [
  (lit "GTS_PDFX", OutputIntentSubtype_PDFX); (lit "GTS_PDFA1", OutputIntentSubtype_PDFA);
  (lit "ISO_PDFE1", OutputIntentSubtype_PDFE)
  ].
Definition is_OutputIntentSubtype (x : OutputIntentSubtype) (v : val) : Prop :=
  match x with OutputIntentSubtype_Custom n => v = VName n | _ => is_named OutputIntentSubtype_table x v end.
Definition OutputIntentSubtype_ok (x : OutputIntentSubtype) : bool := match x with OutputIntentSubtype_Custom n => name_ok n | _ => true end.

(** Table 43, AFRelationship. *)
Definition AssociationKind_table : list (bytes * AssociationKind) := [
  (lit "Source", AssociationKind_Source); (lit "Data", AssociationKind_Data);
  (lit "Alternative", AssociationKind_Alternative); (lit "Supplement", AssociationKind_Supplement);
  (lit "EncryptedPayload", AssociationKind_EncryptedPayload); (lit "FormData", AssociationKind_FormData);
  (lit "Schema", AssociationKind_Schema); (lit "Unspecified", AssociationKind_Unspecified)
  ].
Definition is_AssociationKind (x : AssociationKind) (v : val) : Prop := is_named AssociationKind_table x v.

(** Table 115, Subtype. *)
Definition CidFontType_table : list (bytes * CidFontType) := [
  (lit "CIDFontType0", CidFontType_Type0); (lit "CIDFontType2", CidFontType_Type2)
  ].
Definition is_CidFontType (x : CidFontType) (v : val) : Prop := is_named CidFontType_table x v.

(** Tables 122 and 123. *)
Definition CjkClass_table : list (bytes * CjkClass) := [
  (lit "Alphabetic", CjkClass_Alphabetic); (lit "AlphaNum", CjkClass_AlphaNum);
  (lit "Dingbats", CjkClass_Dingbats); (lit "DingbatsRot", CjkClass_DingbatsRot);
  (lit "Generic", CjkClass_Generic); (lit "GenericRot", CjkClass_GenericRot);
  (lit "Hangul", CjkClass_Hangul); (lit "Hanja", CjkClass_Hanja); (lit "Hanzi", CjkClass_Hanzi);
  (lit "HRoman", CjkClass_HRoman); (lit "HRomanRot", CjkClass_HRomanRot); (lit "HKana", CjkClass_HKana);
  (lit "HKanaRot", CjkClass_HKanaRot); (lit "HojoKanji", CjkClass_HojoKanji); (lit "Kana", CjkClass_Kana);
  (lit "Kanji", CjkClass_Kanji); (lit "Proportional", CjkClass_Proportional);
  (lit "ProportionalRot", CjkClass_ProportionalRot); (lit "Ruby", CjkClass_Ruby)
  ].
Definition is_CjkClass (x : CjkClass) (v : val) : Prop := is_named CjkClass_table x v.

(** Table 120, FontStretch. *)
Definition FontStretch_table : list (bytes * FontStretch) := [
  (lit "UltraCondensed", FontStretch_UltraCondensed); (lit "ExtraCondensed", FontStretch_ExtraCondensed);
  (lit "Condensed", FontStretch_Condensed); (lit "SemiCondensed", FontStretch_SemiCondensed);
  (lit "Normal", FontStretch_Normal); (lit "SemiExpanded", FontStretch_SemiExpanded);
  (lit "Expanded", FontStretch_Expanded); (lit "ExtraExpanded", FontStretch_ExtraExpanded);
  (lit "UltraExpanded", FontStretch_UltraExpanded)
  ].
Definition is_FontStretch (x : FontStretch) (v : val) : Prop := is_named FontStretch_table x v.

(** Table 226, FT. *)
Definition FieldType_table : list (bytes * FieldType) := [
  (lit "Btn", FieldType_Button); (lit "Tx", FieldType_Text); (lit "Ch", FieldType_Choice);
  (lit "Sig", FieldType_Signature)
  ].
Definition is_FieldType (x : FieldType) (v : val) : Prop := is_named FieldType_table x v.

(** 12.7.5.2.3. *)
Definition CheckBoxState_table : list (bytes * CheckBoxState) := [
  (lit "Yes", CheckBoxState_Yes); (lit "Off", CheckBoxState_Off)
  ].
Definition is_CheckBoxState (x : CheckBoxState) (v : val) : Prop := is_named CheckBoxState_table x v.

(** Table 236, Action. *)
Definition SignatureLockAction_table : list (bytes * SignatureLockAction) := [
  (lit "All", SignatureLockAction_All); (lit "Include", SignatureLockAction_Include);
  (lit "Exclude", SignatureLockAction_Exclude)
  ].
Definition is_SignatureLockAction (x : SignatureLockAction) (v : val) : Prop := is_named SignatureLockAction_table x v.

(** Table 237, DigestMethod. *)
Definition SignatureDigestMethod_table : list (bytes * SignatureDigestMethod) := [
  (lit "SHA1", SignatureDigestMethod_SHA1); (lit "SHA256", SignatureDigestMethod_SHA256);
  (lit "SHA384", SignatureDigestMethod_SHA384); (lit "SHA512", SignatureDigestMethod_SHA512);
  (lit "RIPEMD160", SignatureDigestMethod_RIPEMD160)
  ].
Definition is_SignatureDigestMethod (x : SignatureDigestMethod) (v : val) : Prop := is_named SignatureDigestMethod_table x v.

(** Table 237, LockDocument. *)
Definition LockingIntent_table : list (bytes * LockingIntent) := [
  (lit "true", LockingIntent_Lock); (lit "false", LockingIntent_DoNotLock); (lit "auto", LockingIntent_Auto)
  ].
Definition is_LockingIntent (x : LockingIntent) (v : val) : Prop := is_named LockingIntent_table x v.

(** Table 238, URLType. *)
Definition CertificateUrlType_table : list (bytes * CertificateUrlType) := [
  (lit "Browser", CertificateUrlType_Browser)
  ].
Definition is_CertificateUrlType (x : CertificateUrlType) (v : val) : Prop :=
  match x with CertificateUrlType_Custom n => v = VName n | _ => is_named CertificateUrlType_table x v end.
Definition CertificateUrlType_ok (x : CertificateUrlType) : bool := match x with CertificateUrlType_Custom n => name_ok n | _ => true end.

(** Table 275, S. *)
Definition RenditionType_table : list (bytes * RenditionType) := [
  (lit "MR", RenditionType_Media); (lit "SR", RenditionType_Selector)
  ].
Definition is_RenditionType (x : RenditionType) (v : val) : Prop := is_named RenditionType_table x v.

(** Table 282, S. *)
Definition MediaClipType_table : list (bytes * MediaClipType) := [
  (lit "MCD", MediaClipType_Data); (lit "MCS", MediaClipType_Section)
  ].
Definition is_MediaClipType (x : MediaClipType) (v : val) : Prop := is_named MediaClipType_table x v.

(** Table 29, PageLayout. *)
Definition PageLayout_table : list (bytes * PageLayout) := [
  (lit "SinglePage", PageLayout_SinglePage); (lit "OneColumn", PageLayout_OneColumn);
  (lit "TwoColumnLeft", PageLayout_TwoColumnLeft); (lit "TwoColumnRight", PageLayout_TwoColumnRight);
  (lit "TwoPageLeft", PageLayout_TwoPageLeft); (lit "TwoPageRight", PageLayout_TwoPageRight)
  ].
Definition is_PageLayout (x : PageLayout) (v : val) : Prop := is_named PageLayout_table x v.

(** Table 29, PageMode. *)
Definition PageMode_table : list (bytes * PageMode) := [
  (lit "UseNone", PageMode_UseNone); (lit "UseOutlines", PageMode_UseOutlines);
  (lit "UseThumbs", PageMode_UseThumbs); (lit "FullScreen", PageMode_FullScreen);
  (lit "UseOC", PageMode_UseOC); (lit "UseAttachments", PageMode_UseAttachments)
  ].
Definition is_PageMode (x : PageMode) (v : val) : Prop := is_named PageMode_table x v.

(** ISO 32000-1, 14.8.4. *)
Definition StructRole_table : list (bytes * StructRole) := [
  (lit "Document", StructRole_Document); (lit "Part", StructRole_Part); (lit "Art", StructRole_Art);
  (lit "Sect", StructRole_Sect); (lit "Div", StructRole_Div); (lit "BlockQuote", StructRole_BlockQuote);
  (lit "Caption", StructRole_Caption); (lit "TOC", StructRole_TOC); (lit "TOCI", StructRole_TOCI);
  (lit "Index", StructRole_Index); (lit "NonStruct", StructRole_NonStruct);
  (lit "Private", StructRole_Private); (lit "P", StructRole_P); (lit "H", StructRole_StructuredHeading);
  (lit "H1", StructRole_H1); (lit "H2", StructRole_H2); (lit "H3", StructRole_H3); (lit "H4", StructRole_H4);
  (lit "H5", StructRole_H5); (lit "H6", StructRole_H6); (lit "L", StructRole_L); (lit "LI", StructRole_LI);
  (lit "Lbl", StructRole_Lbl); (lit "LBody", StructRole_LBody); (lit "Table", StructRole_Table);
  (lit "TR", StructRole_TR); (lit "TH", StructRole_TH); (lit "TD", StructRole_TD);
  (lit "THead", StructRole_THead); (lit "TBody", StructRole_TBody); (lit "TFoot", StructRole_TFoot);
  (lit "Span", StructRole_Span); (lit "Quote", StructRole_Quote); (lit "Note", StructRole_Note);
  (lit "Reference", StructRole_Reference); (lit "BibEntry", StructRole_BibEntry);
  (lit "Code", StructRole_Code); (lit "Link", StructRole_Link); (lit "Annot", StructRole_Annot);
  (lit "Ruby", StructRole_Ruby); (lit "RB", StructRole_RB); (lit "RT", StructRole_RT);
  (lit "RP", StructRole_RP); (lit "Warichu", StructRole_Warichu); (lit "WT", StructRole_WT);
  (lit "WP", StructRole_WP); (lit "Figure", StructRole_Figure); (lit "Formula", StructRole_Formula);
  (lit "Form", StructRole_Form)
  ].
Definition is_StructRole (x : StructRole) (v : val) : Prop := is_named StructRole_table x v.

(** Table 355, PhoneticAlphabet. *)
Definition PhoneticAlphabet_table : list (bytes * PhoneticAlphabet) := [
  (lit "ipa", PhoneticAlphabet_Ipa); (lit "x-sampa", PhoneticAlphabet_XSampa);
  (lit "zh-Latn-pinyin", PhoneticAlphabet_Pinyin); (lit "zh-Latn-wadegile", PhoneticAlphabet_WadeGiles)
  ].
Definition is_PhoneticAlphabet (x : PhoneticAlphabet) (v : val) : Prop :=
  match x with PhoneticAlphabet_Custom n => v = VName n | _ => is_named PhoneticAlphabet_table x v end.
Definition PhoneticAlphabet_ok (x : PhoneticAlphabet) : bool := match x with PhoneticAlphabet_Custom n => name_ok n | _ => true end.

(** Table 147, Direction. *)
Definition Direction_table : list (bytes * Direction) := [
  (lit "L2R", Direction_L2R); (lit "R2L", Direction_R2L)
  ].
Definition is_Direction (x : Direction) (v : val) : Prop := is_named Direction_table x v.

(** Table 161, S. *)
Definition NumberingStyle_table : list (bytes * NumberingStyle) := [
  (lit "D", NumberingStyle_Arabic); (lit "R", NumberingStyle_UpperRoman);
  (lit "r", NumberingStyle_LowerRoman); (lit "A", NumberingStyle_UpperAlpha);
  (lit "a", NumberingStyle_LowerAlpha)
  ].
Definition is_NumberingStyle (x : NumberingStyle) (v : val) : Prop := is_named NumberingStyle_table x v.

(** Table 349, Trapped. *)
Definition TrappingStatus_table : list (bytes * TrappingStatus) := [
  (lit "True", TrappingStatus_Trapped); (lit "False", TrappingStatus_NotTrapped);
  (lit "Unknown", TrappingStatus_Unknown)
  ].
Definition is_TrappingStatus (x : TrappingStatus) (v : val) : Prop := is_named TrappingStatus_table x v.

(** Table 31, Tabs. *)
Definition TabOrder_table : list (bytes * TabOrder) := [
  (lit "R", TabOrder_RowOrder); (lit "C", TabOrder_ColumnOrder); (lit "S", TabOrder_StructureOrder)
  ].
Definition is_TabOrder (x : TabOrder) (v : val) : Prop := is_named TabOrder_table x v.

(** Table 164, S. *)
Definition TransitionStyle_table : list (bytes * TransitionStyle) := [
  (lit "Split", TransitionStyle_Split); (lit "Blinds", TransitionStyle_Blinds);
  (lit "Box", TransitionStyle_Box); (lit "Wipe", TransitionStyle_Wipe);
  (lit "Dissolve", TransitionStyle_Dissolve); (lit "Glitter", TransitionStyle_Glitter);
  (lit "R", TransitionStyle_R); (lit "Fly", TransitionStyle_Fly); (lit "Push", TransitionStyle_Push);
  (lit "Cover", TransitionStyle_Cover); (lit "Uncover", TransitionStyle_Uncover);
  (lit "Fade", TransitionStyle_Fade)
  ].
Definition is_TransitionStyle (x : TransitionStyle) (v : val) : Prop := is_named TransitionStyle_table x v.

(** Table 363, Type. *)
Definition ArtifactType_table : list (bytes * ArtifactType) := [
  (lit "Pagination", ArtifactType_Pagination); (lit "Layout", ArtifactType_Layout);
  (lit "Page", ArtifactType_Page); (lit "Background", ArtifactType_Background);
  (lit "Inline", ArtifactType_Inline)
  ].
Definition is_ArtifactType (x : ArtifactType) (v : val) : Prop := is_named ArtifactType_table x v.

(** Table 363, Subtype. *)
Definition ArtifactSubtype_table : list (bytes * ArtifactSubtype) := [
  (lit "Header", ArtifactSubtype_Header); (lit "Footer", ArtifactSubtype_Footer);
  (lit "Watermark", ArtifactSubtype_Watermark); (lit "PageNum", ArtifactSubtype_PageNumber);
  (lit "LineNum", ArtifactSubtype_LineNumber); (lit "Bates", ArtifactSubtype_Bates);
  (lit "Redaction", ArtifactSubtype_Redaction)
  ].
Definition is_ArtifactSubtype (x : ArtifactSubtype) (v : val) : Prop :=
  match x with ArtifactSubtype_Custom n => v = VName n | _ => is_named ArtifactSubtype_table x v end.
Definition ArtifactSubtype_ok (x : ArtifactSubtype) : bool := match x with ArtifactSubtype_Custom n => name_ok n | _ => true end.

(** Table 363, Attached. *)
Definition ArtifactAttachment_table : list (bytes * ArtifactAttachment) := [
  (lit "Top", ArtifactAttachment_Top); (lit "Bottom", ArtifactAttachment_Bottom);
  (lit "Left", ArtifactAttachment_Left); (lit "Right", ArtifactAttachment_Right)
  ].
Definition is_ArtifactAttachment (x : ArtifactAttachment) (v : val) : Prop := is_named ArtifactAttachment_table x v.

(** Table 346. *)
Definition ProcSet_table : list (bytes * ProcSet) := [
  (lit "PDF", ProcSet_Pdf); (lit "Text", ProcSet_Text); (lit "ImageB", ProcSet_ImageGrayscale);
  (lit "ImageC", ProcSet_ImageColor); (lit "ImageI", ProcSet_ImageIndexed)
  ].
Definition is_ProcSet (x : ProcSet) (v : val) : Prop := is_named ProcSet_table x v.

(** Tables 134 and 135. *)
Definition BlendMode_table : list (bytes * BlendMode) := [
  (lit "Normal", BlendMode_Normal); (lit "Multiply", BlendMode_Multiply); (lit "Screen", BlendMode_Screen);
  (lit "Overlay", BlendMode_Overlay); (lit "Darken", BlendMode_Darken); (lit "Lighten", BlendMode_Lighten);
  (lit "ColorDodge", BlendMode_ColorDodge); (lit "ColorBurn", BlendMode_ColorBurn);
  (lit "HardLight", BlendMode_HardLight); (lit "SoftLight", BlendMode_SoftLight);
  (lit "Difference", BlendMode_Difference); (lit "Exclusion", BlendMode_Exclusion);
  (lit "Hue", BlendMode_Hue); (lit "Saturation", BlendMode_Saturation); (lit "Color", BlendMode_Color);
  (lit "Luminosity", BlendMode_Luminosity)
  ].
Definition is_BlendMode (x : BlendMode) (v : val) : Prop := is_named BlendMode_table x v.

(** Table 142, S. *)
Definition MaskType_table : list (bytes * MaskType) := [
  (lit "Alpha", MaskType_Alpha); (lit "Luminosity", MaskType_Luminosity)
  ].
Definition is_MaskType (x : MaskType) (v : val) : Prop := is_named MaskType_table x v.

(** Table 69. *)
Definition RenderingIntent_table : list (bytes * ModelContent.rendering_intent) := [
  (lit "AbsoluteColorimetric", ModelContent.AbsoluteColorimetric);
  (lit "RelativeColorimetric", ModelContent.RelativeColorimetric);
  (lit "Saturation", ModelContent.IntentSaturation); (lit "Perceptual", ModelContent.Perceptual)
  ].
Definition is_RenderingIntent (x : ModelContent.rendering_intent) (v : val) : Prop := is_named RenderingIntent_table x v.

(** Table 281, TF. *)
Definition TempFileType_table : list (bytes * TempFileType) := [
  (lit "TEMPNEVER", TempFileType_Never); (lit "TEMPEXTRACT", TempFileType_Extract);
  (lit "TEMPACCESS", TempFileType_Access); (lit "TEMPALWAYS", TempFileType_Always)
  ].
Definition is_TempFileType (x : TempFileType) (v : val) : Prop := is_str_of TempFileType_table x v.

(** Table 218, OP. *)
Definition RenditionOperation_table : list (Z * RenditionOperation) := [
  (0, RenditionOperation_Play); (1, RenditionOperation_Stop); (2, RenditionOperation_Pause);
  (3, RenditionOperation_Resume); (4, RenditionOperation_PlayOrResume)
  ].
Definition is_RenditionOperation (x : RenditionOperation) (v : val) : Prop := is_numbered RenditionOperation_table x v.

(** Table 192, TP. *)
Definition TextPosition_table : list (Z * TextPosition) := [
  (0, TextPosition_CaptionOnly); (1, TextPosition_IconOnly); (2, TextPosition_Below);
  (3, TextPosition_Above); (4, TextPosition_Right); (5, TextPosition_Left); (6, TextPosition_Overlaid)
  ].
Definition is_TextPosition (x : TextPosition) (v : val) : Prop := is_numbered TextPosition_table x v.

(** Table 74, PaintType. *)
Definition PaintType_table : list (Z * PaintType) := [
  (1, PaintType_Colored); (2, PaintType_Uncolored)
  ].
Definition is_PaintType (x : PaintType) (v : val) : Prop := is_numbered PaintType_table x v.

(** Table 74, TilingType. *)
Definition TilingType_table : list (Z * TilingType) := [
  (1, TilingType_ConstantSpacing); (2, TilingType_NoDistortion); (3, TilingType_FastConstantSpacing)
  ].
Definition is_TilingType (x : TilingType) (v : val) : Prop := is_numbered TilingType_table x v.

(** Table 77, ShadingType. *)
Definition FunctionShadingType_table : list (Z * FunctionShadingType) := [
  (1, FunctionShadingType_Function); (2, FunctionShadingType_Axial); (3, FunctionShadingType_Radial)
  ].
Definition is_FunctionShadingType (x : FunctionShadingType) (v : val) : Prop := is_numbered FunctionShadingType_table x v.

(** Table 77, ShadingType. *)
Definition StreamShadingType_table : list (Z * StreamShadingType) := [
  (4, StreamShadingType_FreeformGouraud); (5, StreamShadingType_LatticeGouraud);
  (6, StreamShadingType_CoonsPatch); (7, StreamShadingType_TensorProductPatch)
  ].
Definition is_StreamShadingType (x : StreamShadingType) (v : val) : Prop := is_numbered StreamShadingType_table x v.

(** Table 228, Q. *)
Definition Quadding_table : list (Z * Quadding) := [
  (0, Quadding_Left); (1, Quadding_Center); (2, Quadding_Right)
  ].
Definition is_Quadding (x : Quadding) (v : val) : Prop := is_numbered Quadding_table x v.

(** Table 237, V. *)
Definition SeedValueParserVersion_table : list (Z * SeedValueParserVersion) := [
  (1, SeedValueParserVersion_Pdf15); (2, SeedValueParserVersion_Pdf17); (3, SeedValueParserVersion_Pdf20)
  ].
Definition is_SeedValueParserVersion (x : SeedValueParserVersion) (v : val) : Prop := is_numbered SeedValueParserVersion_table x v.

(** Tables 236 and 257, P. *)
Definition AccessPermissions_table : list (Z * AccessPermissions) := [
  (1, AccessPermissions_NoChanges); (2, AccessPermissions_FillAndSign); (3, AccessPermissions_Annotations)
  ].
Definition is_AccessPermissions (x : AccessPermissions) (v : val) : Prop := is_numbered AccessPermissions_table x v.

(** Table 39, Order. *)
Definition InterpolationOrder_table : list (Z * InterpolationOrder) := [
  (1, InterpolationOrder_Linear); (3, InterpolationOrder_Cubic)
  ].
Definition is_InterpolationOrder (x : InterpolationOrder) (v : val) : Prop := is_numbered InterpolationOrder_table x v.

(** Table 87, SMaskInData. *)
Definition SMaskInData_table : list (Z * SMaskInData) := [
  (0, SMaskInData_Ignore); (1, SMaskInData_Use); (2, SMaskInData_Preblended)
  ].
Definition is_SMaskInData (x : SMaskInData) (v : val) : Prop := is_numbered SMaskInData_table x v.

(** Table 10. *)
Definition Predictor_table : list (Z * Predictor) := [
  (1, Predictor_None); (2, Predictor_Tiff); (10, Predictor_PngNone); (11, Predictor_PngSub);
  (12, Predictor_PngUp); (13, Predictor_PngAverage); (14, Predictor_PngPaeth); (15, Predictor_PngOptimum)
  ].
Definition is_Predictor (x : Predictor) (v : val) : Prop := is_numbered Predictor_table x v.

(** Table 53. *)
Definition LineCapStyle_table : list (Z * ModelContent.line_cap) := [
  (0, ModelContent.ButtCap); (1, ModelContent.RoundCap); (2, ModelContent.ProjectingSquareCap)
  ].
Definition is_LineCapStyle (x : ModelContent.line_cap) (v : val) : Prop := is_numbered LineCapStyle_table x v.

(** Table 54. *)
Definition LineJoinStyle_table : list (Z * ModelContent.line_join) := [
  (0, ModelContent.MiterJoin); (1, ModelContent.RoundJoin); (2, ModelContent.BevelJoin)
  ].
Definition is_LineJoinStyle (x : ModelContent.line_join) (v : val) : Prop := is_numbered LineJoinStyle_table x v.

(** Table 57, OPM. *)
Definition OverprintMode_table : list (Z * OverprintMode) := [
  (0, OverprintMode_OverrideAllColorants); (1, OverprintMode_IgnoreZeroChannel)
  ].
Definition is_OverprintMode (x : OverprintMode) (v : val) : Prop := is_numbered OverprintMode_table x v.

(** Table 118, WMode. *)
Definition WMode_table : list (Z * ModelCmap.wmode) := [
  (0, ModelCmap.WHorizontal); (1, ModelCmap.WVertical)
  ].
Definition is_WMode (x : ModelCmap.wmode) (v : val) : Prop := is_numbered WMode_table x v.

(** Table 376 (2020). *)
Definition AttributeOwner_table_2020 : list (bytes * AttributeOwner) := [
  (lit "Layout", AttributeOwner_Layout); (lit "List", AttributeOwner_List);
  (lit "PrintField", AttributeOwner_PrintField); (lit "Table", AttributeOwner_Table);
  (lit "Artifact", AttributeOwner_Artifact); (lit "XML-1.00", AttributeOwner_Xml);
  (lit "HTML-3.20", AttributeOwner_Html3_2); (lit "HTML-4.01", AttributeOwner_Html4);
  (lit "HTML-5.00", AttributeOwner_Html5); (lit "OEB-1.00", AttributeOwner_Oeb);
  (lit "RTF-1.05", AttributeOwner_Rtf1_05); (lit "CSS-1", AttributeOwner_Css1);
  (lit "CSS-2", AttributeOwner_Css2); (lit "CSS-3", AttributeOwner_Css3);
  (lit "RDFa-1.10", AttributeOwner_Rdfa1_1); (lit "ARIA-1.1", AttributeOwner_Aria1_1);
  (lit "FENote", AttributeOwner_FENote); (lit "NSO", AttributeOwner_NSO);
  (lit "UserProperties", AttributeOwner_User)
  ].
(** Table 376 (before 2020: the CSS versions are written with two decimals). *)
Definition AttributeOwner_table_old : list (bytes * AttributeOwner) := [
  (lit "Layout", AttributeOwner_Layout); (lit "List", AttributeOwner_List);
  (lit "PrintField", AttributeOwner_PrintField); (lit "Table", AttributeOwner_Table);
  (lit "Artifact", AttributeOwner_Artifact); (lit "XML-1.00", AttributeOwner_Xml);
  (lit "HTML-3.20", AttributeOwner_Html3_2); (lit "HTML-4.01", AttributeOwner_Html4);
  (lit "HTML-5.00", AttributeOwner_Html5); (lit "OEB-1.00", AttributeOwner_Oeb);
  (lit "RTF-1.05", AttributeOwner_Rtf1_05); (lit "CSS-1.00", AttributeOwner_Css1);
  (lit "CSS-2.00", AttributeOwner_Css2); (lit "CSS-3", AttributeOwner_Css3);
  (lit "RDFa-1.10", AttributeOwner_Rdfa1_1); (lit "ARIA-1.1", AttributeOwner_Aria1_1);
  (lit "FENote", AttributeOwner_FENote); (lit "NSO", AttributeOwner_NSO);
  (lit "UserProperties", AttributeOwner_User)
  ].
Definition is_AttributeOwner (x : AttributeOwner) (iso2020 : bool) (v : val) : Prop :=
  is_named (if iso2020 then AttributeOwner_table_2020 else AttributeOwner_table_old) x v.

(** Tables 240 and 241: bit positions, from 1 for the low-order bit. *)
Definition FormActionFlags_pos (x : FormActionFlags) : Z :=
  match x with
  | FormActionFlags_IncludeExclude => 1 | FormActionFlags_IncludeNoValueFields => 2
  | FormActionFlags_ExportFormat => 3 | FormActionFlags_GetMethod => 4
  | FormActionFlags_SubmitCoordinates => 5 | FormActionFlags_Xfdf => 6
  | FormActionFlags_IncludeAppendSaves => 7 | FormActionFlags_IncludeAnnotations => 8
  | FormActionFlags_SubmitPdf => 9 | FormActionFlags_CanonicalFormat => 10
  | FormActionFlags_ExcludeNonUserAnnots => 11 | FormActionFlags_ExcludeFKey => 12
  | FormActionFlags_EmbedForm => 14
  end.

(** Table 167: bit positions, from 1 for the low-order bit. *)
Definition AnnotationFlags_pos (x : AnnotationFlags) : Z :=
  match x with
  | AnnotationFlags_Invisible => 1 | AnnotationFlags_Hidden => 2 | AnnotationFlags_Print => 3
  | AnnotationFlags_NoZoom => 4 | AnnotationFlags_NoRotate => 5 | AnnotationFlags_NoView => 6
  | AnnotationFlags_ReadOnly => 7 | AnnotationFlags_Locked => 8 | AnnotationFlags_ToggleNoView => 9
  | AnnotationFlags_LockedContents => 10
  end.

(** Table 121: bit positions, from 1 for the low-order bit. *)
Definition FontFlags_pos (x : FontFlags) : Z :=
  match x with
  | FontFlags_FixedPitch => 1 | FontFlags_Serif => 2 | FontFlags_Symbolic => 3 | FontFlags_Script => 4
  | FontFlags_NonSymbolic => 6 | FontFlags_Italic => 7 | FontFlags_AllCap => 17 | FontFlags_SmallCap => 18
  | FontFlags_ForceBold => 19
  end.

(** Table 225: bit positions, from 1 for the low-order bit. *)
Definition SigFlags_pos (x : SigFlags) : Z :=
  match x with
  | SigFlags_SignaturesExist => 1 | SigFlags_AppendOnly => 2
  end.

(** Table 237, Ff: bit positions, from 1 for the low-order bit. *)
Definition SignatureSeedValueFlags_pos (x : SignatureSeedValueFlags) : Z :=
  match x with
  | SignatureSeedValueFlags_Filter => 1 | SignatureSeedValueFlags_SubFilter => 2
  | SignatureSeedValueFlags_Version => 3 | SignatureSeedValueFlags_Reasons => 4
  | SignatureSeedValueFlags_LegalAttestation => 5 | SignatureSeedValueFlags_AddRevInfo => 6
  | SignatureSeedValueFlags_DigestMethod => 7 | SignatureSeedValueFlags_LockDocument => 8
  | SignatureSeedValueFlags_AppearanceFilter => 9
  end.

(** Table 238, Ff: bit positions, from 1 for the low-order bit. *)
Definition CertificateSeedValueFlags_pos (x : CertificateSeedValueFlags) : Z :=
  match x with
  | CertificateSeedValueFlags_Subject => 1 | CertificateSeedValueFlags_Issuer => 2
  | CertificateSeedValueFlags_Oid => 3 | CertificateSeedValueFlags_SubjectDn => 4
  | CertificateSeedValueFlags_KeyUsage => 6 | CertificateSeedValueFlags_Url => 7
  end.

(** Tables 227, 229, 231 and 233: bit positions, from 1 for the low-order bit. *)
Definition FieldFlags_pos (x : FieldFlags) : Z :=
  match x with
  | FieldFlags_ReadOnly => 1 | FieldFlags_Required => 2 | FieldFlags_NoExport => 3
  | FieldFlags_Multiline => 13 | FieldFlags_Password => 14 | FieldFlags_NoToggleToOff => 15
  | FieldFlags_Radio => 16 | FieldFlags_Pushbutton => 17 | FieldFlags_Combo => 18 | FieldFlags_Edit => 19
  | FieldFlags_Sort => 20 | FieldFlags_FileSelect => 21 | FieldFlags_MultiSelect => 22
  | FieldFlags_DoNotSpellCheck => 23 | FieldFlags_DoNotScroll => 24 | FieldFlags_Comb => 25
  | FieldFlags_RadiosInUnison => 26 | FieldFlags_RichText => 26 | FieldFlags_CommitOnSelChange => 27
  end.

(** Table 152: bit positions, from 1 for the low-order bit. *)
Definition OutlineItemFlags_pos (x : OutlineItemFlags) : Z :=
  match x with
  | OutlineItemFlags_Italic => 1 | OutlineItemFlags_Bold => 2
  end.
