(** Model of the enum and flag arguments of the typed writers.  Generated by gen/gen_enums.py from the source text. *)

From Coq Require Import ZArith List.
From Verif Require Import Bytes ModelFloat ModelBuf ModelObject.
Import ListNotations.
Local Open Scope Z_scope.

(** src/actions.rs:183, 219-231 [to_name]. *)
Inductive ActionType :=
  | ActionType_GoTo | ActionType_RemoteGoTo | ActionType_Launch | ActionType_Uri | ActionType_SubmitForm
  | ActionType_ResetForm | ActionType_ImportData | ActionType_JavaScript | ActionType_Rendition.
Definition ActionType_name (x : ActionType) : bytes :=
  match x with
  | ActionType_GoTo => lit "GoTo" | ActionType_RemoteGoTo => lit "GoToR" | ActionType_Launch => lit "Launch"
  | ActionType_Uri => lit "URI" | ActionType_SubmitForm => lit "SubmitForm"
  | ActionType_ResetForm => lit "ResetForm" | ActionType_ImportData => lit "ImportData"
  | ActionType_JavaScript => lit "JavaScript" | ActionType_Rendition => lit "Rendition"
  end.

(** src/annotations.rs:244, 277-292 [to_name]. *)
Inductive AnnotationType :=
  | AnnotationType_Text | AnnotationType_Link | AnnotationType_Line | AnnotationType_Square
  | AnnotationType_Circle | AnnotationType_Highlight | AnnotationType_Underline | AnnotationType_Squiggly
  | AnnotationType_StrikeOut | AnnotationType_FileAttachment | AnnotationType_Widget | AnnotationType_Screen.
Definition AnnotationType_name (x : AnnotationType) : bytes :=
  match x with
  | AnnotationType_Text => lit "Text" | AnnotationType_Link => lit "Link" | AnnotationType_Line => lit "Line"
  | AnnotationType_Square => lit "Square" | AnnotationType_Circle => lit "Circle"
  | AnnotationType_Highlight => lit "Highlight" | AnnotationType_Underline => lit "Underline"
  | AnnotationType_Squiggly => lit "Squiggly" | AnnotationType_StrikeOut => lit "StrikeOut"
  | AnnotationType_FileAttachment => lit "FileAttachment" | AnnotationType_Widget => lit "Widget"
  | AnnotationType_Screen => lit "Screen"
  end.

(** src/annotations.rs:297, 326-341 [to_name]. *)
Inductive AnnotationIcon :=
  | AnnotationIcon_Comment | AnnotationIcon_Key | AnnotationIcon_Note | AnnotationIcon_Help
  | AnnotationIcon_NewParagraph | AnnotationIcon_Paragraph | AnnotationIcon_Insert | AnnotationIcon_Graph
  | AnnotationIcon_PushPin | AnnotationIcon_Paperclip | AnnotationIcon_Tag
  | AnnotationIcon_Custom (name : bytes).
Definition AnnotationIcon_name (x : AnnotationIcon) : bytes :=
  match x with
  | AnnotationIcon_Comment => lit "Comment" | AnnotationIcon_Key => lit "Key"
  | AnnotationIcon_Note => lit "Note" | AnnotationIcon_Help => lit "Help"
  | AnnotationIcon_NewParagraph => lit "NewParagraph" | AnnotationIcon_Paragraph => lit "Paragraph"
  | AnnotationIcon_Insert => lit "Insert" | AnnotationIcon_Graph => lit "Graph"
  | AnnotationIcon_PushPin => lit "PushPin" | AnnotationIcon_Paperclip => lit "Paperclip"
  | AnnotationIcon_Tag => lit "Tag" | AnnotationIcon_Custom name => name
  end.

(** src/annotations.rs:597, 612-619 [to_name]. *)
Inductive IconScale :=
  | IconScale_Always | IconScale_Bigger | IconScale_Smaller | IconScale_Never.
Definition IconScale_name (x : IconScale) : bytes :=
  match x with
  | IconScale_Always => lit "A" | IconScale_Bigger => lit "B" | IconScale_Smaller => lit "S"
  | IconScale_Never => lit "N"
  end.

(** src/annotations.rs:624, 638-643 [to_name]. *)
Inductive IconScaleType :=
  | IconScaleType_Anamorphic | IconScaleType_Proportional.
Definition IconScaleType_name (x : IconScaleType) : bytes :=
  match x with
  | IconScaleType_Anamorphic => lit "A" | IconScaleType_Proportional => lit "P"
  end.

(** src/annotations.rs:649, 662-669 [to_name]. *)
Inductive HighlightEffect :=
  | HighlightEffect_None | HighlightEffect_Invert | HighlightEffect_Outline | HighlightEffect_Push.
Definition HighlightEffect_name (x : HighlightEffect) : bytes :=
  match x with
  | HighlightEffect_None => lit "N" | HighlightEffect_Invert => lit "I" | HighlightEffect_Outline => lit "O"
  | HighlightEffect_Push => lit "P"
  end.

(** src/annotations.rs:767, 781-789 [to_name]. *)
Inductive BorderType :=
  | BorderType_Solid | BorderType_Dashed | BorderType_Beveled | BorderType_Inset | BorderType_Underline.
Definition BorderType_name (x : BorderType) : bytes :=
  match x with
  | BorderType_Solid => lit "S" | BorderType_Dashed => lit "D" | BorderType_Beveled => lit "B"
  | BorderType_Inset => lit "I" | BorderType_Underline => lit "U"
  end.

(** src/attributes.rs:293, 310-318 [to_name]. *)
Inductive Placement :=
  | Placement_Block | Placement_Inline | Placement_Before | Placement_Start | Placement_End.
Definition Placement_name (x : Placement) : bytes :=
  match x with
  | Placement_Block => lit "Block" | Placement_Inline => lit "Inline" | Placement_Before => lit "Before"
  | Placement_Start => lit "Start" | Placement_End => lit "End"
  end.

(** src/attributes.rs:323, 334-340 [to_name]. *)
Inductive WritingMode :=
  | WritingMode_LtrTtb | WritingMode_RtlTtb | WritingMode_TtbRtl.
Definition WritingMode_name (x : WritingMode) : bytes :=
  match x with
  | WritingMode_LtrTtb => lit "LrTb" | WritingMode_RtlTtb => lit "RlTb" | WritingMode_TtbRtl => lit "TbRl"
  end.

(** src/attributes.rs:441, 454-461 [to_name]. *)
Inductive TextAlign :=
  | TextAlign_Start | TextAlign_Center | TextAlign_End | TextAlign_Justify.
Definition TextAlign_name (x : TextAlign) : bytes :=
  match x with
  | TextAlign_Start => lit "Start" | TextAlign_Center => lit "Center" | TextAlign_End => lit "End"
  | TextAlign_Justify => lit "Justify"
  end.

(** src/attributes.rs:504, 517-524 [to_name]. *)
Inductive BlockAlign :=
  | BlockAlign_Before | BlockAlign_Middle | BlockAlign_After | BlockAlign_Justify.
Definition BlockAlign_name (x : BlockAlign) : bytes :=
  match x with
  | BlockAlign_Before => lit "Before" | BlockAlign_Middle => lit "Middle" | BlockAlign_After => lit "After"
  | BlockAlign_Justify => lit "Justify"
  end.

(** src/attributes.rs:574, 585-591 [to_name]. *)
Inductive InlineAlign :=
  | InlineAlign_Start | InlineAlign_Center | InlineAlign_End.
Definition InlineAlign_name (x : InlineAlign) : bytes :=
  match x with
  | InlineAlign_Start => lit "Start" | InlineAlign_Center => lit "Center" | InlineAlign_End => lit "End"
  end.

(** src/attributes.rs:662, 673-679 [to_name]. *)
Inductive LayoutTextPosition :=
  | LayoutTextPosition_Normal | LayoutTextPosition_Superscript | LayoutTextPosition_Subscript.
Definition LayoutTextPosition_name (x : LayoutTextPosition) : bytes :=
  match x with
  | LayoutTextPosition_Normal => lit "Normal" | LayoutTextPosition_Superscript => lit "Sup"
  | LayoutTextPosition_Subscript => lit "Sub"
  end.

(** src/attributes.rs:684, 697-704 [to_name]. *)
Inductive TextDecorationType :=
  | TextDecorationType_None | TextDecorationType_Underline | TextDecorationType_Overline
  | TextDecorationType_LineThrough.
Definition TextDecorationType_name (x : TextDecorationType) : bytes :=
  match x with
  | TextDecorationType_None => lit "None" | TextDecorationType_Underline => lit "Underline"
  | TextDecorationType_Overline => lit "Overline" | TextDecorationType_LineThrough => lit "LineThrough"
  end.

(** src/attributes.rs:756, 771-779 [to_name]. *)
Inductive RubyAlign :=
  | RubyAlign_Start | RubyAlign_Center | RubyAlign_End | RubyAlign_Justify | RubyAlign_Distribute.
Definition RubyAlign_name (x : RubyAlign) : bytes :=
  match x with
  | RubyAlign_Start => lit "Start" | RubyAlign_Center => lit "Center" | RubyAlign_End => lit "End"
  | RubyAlign_Justify => lit "Justify" | RubyAlign_Distribute => lit "Distribute"
  end.

(** src/attributes.rs:784, 797-804 [to_name]. *)
Inductive RubyPosition :=
  | RubyPosition_Before | RubyPosition_After | RubyPosition_Warichu | RubyPosition_Inline.
Definition RubyPosition_name (x : RubyPosition) : bytes :=
  match x with
  | RubyPosition_Before => lit "Before" | RubyPosition_After => lit "After"
  | RubyPosition_Warichu => lit "Warichu" | RubyPosition_Inline => lit "Inline"
  end.

(** src/attributes.rs:853, 882-897 [to_name]. *)
Inductive ListNumbering :=
  | ListNumbering_None | ListNumbering_Unordered | ListNumbering_Ordered | ListNumbering_Description
  | ListNumbering_Disc | ListNumbering_Circle | ListNumbering_Square | ListNumbering_Decimal
  | ListNumbering_LowerRoman | ListNumbering_UpperRoman | ListNumbering_LowerAlpha | ListNumbering_UpperAlpha.
Definition ListNumbering_name (x : ListNumbering) : bytes :=
  match x with
  | ListNumbering_None => lit "None" | ListNumbering_Unordered => lit "Unordered"
  | ListNumbering_Ordered => lit "Ordered" | ListNumbering_Description => lit "Description"
  | ListNumbering_Disc => lit "Disc" | ListNumbering_Circle => lit "Circle"
  | ListNumbering_Square => lit "Square" | ListNumbering_Decimal => lit "Decimal"
  | ListNumbering_LowerRoman => lit "LowerRoman" | ListNumbering_UpperRoman => lit "UpperRoman"
  | ListNumbering_LowerAlpha => lit "LowerAlpha" | ListNumbering_UpperAlpha => lit "UpperAlpha"
  end.

(** src/attributes.rs:944, 958-966 [to_name]. *)
Inductive FieldRole :=
  | FieldRole_Button | FieldRole_CheckBox | FieldRole_RadioButton | FieldRole_TextField | FieldRole_ListBox.
Definition FieldRole_name (x : FieldRole) : bytes :=
  match x with
  | FieldRole_Button => lit "pb" | FieldRole_CheckBox => lit "cb" | FieldRole_RadioButton => lit "rb"
  | FieldRole_TextField => lit "tv" | FieldRole_ListBox => lit "lb"
  end.

(** src/attributes.rs:971, 982-988 [to_name]. *)
Inductive FieldState :=
  | FieldState_Unchecked | FieldState_Checked | FieldState_Neutral.
Definition FieldState_name (x : FieldState) : bytes :=
  match x with
  | FieldState_Unchecked => lit "off" | FieldState_Checked => lit "on" | FieldState_Neutral => lit "neutral"
  end.

(** src/attributes.rs:1052, 1062-1068 [to_name]. *)
Inductive TableHeaderScope :=
  | TableHeaderScope_Row | TableHeaderScope_Column | TableHeaderScope_Both.
Definition TableHeaderScope_name (x : TableHeaderScope) : bytes :=
  match x with
  | TableHeaderScope_Row => lit "Row" | TableHeaderScope_Column => lit "Column"
  | TableHeaderScope_Both => lit "Both"
  end.

(** src/attributes.rs:1134, 1144-1150 [to_name]. *)
Inductive NoteType :=
  | NoteType_Footnote | NoteType_Endnote | NoteType_None.
Definition NoteType_name (x : NoteType) : bytes :=
  match x with
  | NoteType_Footnote => lit "Footnote" | NoteType_Endnote => lit "Endnote" | NoteType_None => lit "None"
  end.

(** src/color.rs:1312, 1326-1333 [to_name]. *)
Inductive OutputIntentSubtype :=
  | OutputIntentSubtype_PDFX | OutputIntentSubtype_PDFA | OutputIntentSubtype_PDFE
  | OutputIntentSubtype_Custom (name : bytes).
Definition OutputIntentSubtype_name (x : OutputIntentSubtype) : bytes :=
  match x with
  | OutputIntentSubtype_PDFX => lit "GTS_PDFX" | OutputIntentSubtype_PDFA => lit "GTS_PDFA1"
  | OutputIntentSubtype_PDFE => lit "ISO_PDFE1" | OutputIntentSubtype_Custom name => name
  end.

(** src/files.rs:166, 187-198 [to_name]. *)
Inductive AssociationKind :=
  | AssociationKind_Source | AssociationKind_Data | AssociationKind_Alternative | AssociationKind_Supplement
  | AssociationKind_EncryptedPayload | AssociationKind_FormData | AssociationKind_Schema
  | AssociationKind_Unspecified.
Definition AssociationKind_name (x : AssociationKind) : bytes :=
  match x with
  | AssociationKind_Source => lit "Source" | AssociationKind_Data => lit "Data"
  | AssociationKind_Alternative => lit "Alternative" | AssociationKind_Supplement => lit "Supplement"
  | AssociationKind_EncryptedPayload => lit "EncryptedPayload" | AssociationKind_FormData => lit "FormData"
  | AssociationKind_Schema => lit "Schema" | AssociationKind_Unspecified => lit "Unspecified"
  end.

(** src/font.rs:382, 390-395 [to_name]. *)
Inductive CidFontType :=
  | CidFontType_Type0 | CidFontType_Type2.
Definition CidFontType_name (x : CidFontType) : bytes :=
  match x with
  | CidFontType_Type0 => lit "CIDFontType0" | CidFontType_Type2 => lit "CIDFontType2"
  end.

(** src/font.rs:663, 686-708 [to_name]. *)
Inductive CjkClass :=
  | CjkClass_Alphabetic | CjkClass_AlphaNum | CjkClass_Dingbats | CjkClass_DingbatsRot | CjkClass_Generic
  | CjkClass_GenericRot | CjkClass_Hangul | CjkClass_Hanja | CjkClass_Hanzi | CjkClass_HRoman
  | CjkClass_HRomanRot | CjkClass_HKana | CjkClass_HKanaRot | CjkClass_HojoKanji | CjkClass_Kana
  | CjkClass_Kanji | CjkClass_Proportional | CjkClass_ProportionalRot | CjkClass_Ruby.
Definition CjkClass_name (x : CjkClass) : bytes :=
  match x with
  | CjkClass_Alphabetic => lit "Alphabetic" | CjkClass_AlphaNum => lit "AlphaNum"
  | CjkClass_Dingbats => lit "Dingbats" | CjkClass_DingbatsRot => lit "DingbatsRot"
  | CjkClass_Generic => lit "Generic" | CjkClass_GenericRot => lit "GenericRot"
  | CjkClass_Hangul => lit "Hangul" | CjkClass_Hanja => lit "Hanja" | CjkClass_Hanzi => lit "Hanzi"
  | CjkClass_HRoman => lit "HRoman" | CjkClass_HRomanRot => lit "HRomanRot" | CjkClass_HKana => lit "HKana"
  | CjkClass_HKanaRot => lit "HKanaRot" | CjkClass_HojoKanji => lit "HojoKanji" | CjkClass_Kana => lit "Kana"
  | CjkClass_Kanji => lit "Kanji" | CjkClass_Proportional => lit "Proportional"
  | CjkClass_ProportionalRot => lit "ProportionalRot" | CjkClass_Ruby => lit "Ruby"
  end.

(** src/font.rs:714, 727-739 [to_name]. *)
Inductive FontStretch :=
  | FontStretch_UltraCondensed | FontStretch_ExtraCondensed | FontStretch_Condensed
  | FontStretch_SemiCondensed | FontStretch_Normal | FontStretch_SemiExpanded | FontStretch_Expanded
  | FontStretch_ExtraExpanded | FontStretch_UltraExpanded.
Definition FontStretch_name (x : FontStretch) : bytes :=
  match x with
  | FontStretch_UltraCondensed => lit "UltraCondensed" | FontStretch_ExtraCondensed => lit "ExtraCondensed"
  | FontStretch_Condensed => lit "Condensed" | FontStretch_SemiCondensed => lit "SemiCondensed"
  | FontStretch_Normal => lit "Normal" | FontStretch_SemiExpanded => lit "SemiExpanded"
  | FontStretch_Expanded => lit "Expanded" | FontStretch_ExtraExpanded => lit "ExtraExpanded"
  | FontStretch_UltraExpanded => lit "UltraExpanded"
  end.

(** src/forms.rs:182, 196-203 [to_name]. *)
Inductive FieldType :=
  | FieldType_Button | FieldType_Text | FieldType_Choice | FieldType_Signature.
Definition FieldType_name (x : FieldType) : bytes :=
  match x with
  | FieldType_Button => lit "Btn" | FieldType_Text => lit "Tx" | FieldType_Choice => lit "Ch"
  | FieldType_Signature => lit "Sig"
  end.

(** src/forms.rs:242, 250-255 [to_name]. *)
Inductive CheckBoxState :=
  | CheckBoxState_Yes | CheckBoxState_Off.
Definition CheckBoxState_name (x : CheckBoxState) : bytes :=
  match x with
  | CheckBoxState_Yes => lit "Yes" | CheckBoxState_Off => lit "Off"
  end.

(** src/forms.rs:563, 574-580 [to_name]. *)
Inductive SignatureLockAction :=
  | SignatureLockAction_All | SignatureLockAction_Include | SignatureLockAction_Exclude.
Definition SignatureLockAction_name (x : SignatureLockAction) : bytes :=
  match x with
  | SignatureLockAction_All => lit "All" | SignatureLockAction_Include => lit "Include"
  | SignatureLockAction_Exclude => lit "Exclude"
  end.

(** src/forms.rs:764, 778-786 [to_name]. *)
Inductive SignatureDigestMethod :=
  | SignatureDigestMethod_SHA1 | SignatureDigestMethod_SHA256 | SignatureDigestMethod_SHA384
  | SignatureDigestMethod_SHA512 | SignatureDigestMethod_RIPEMD160.
Definition SignatureDigestMethod_name (x : SignatureDigestMethod) : bytes :=
  match x with
  | SignatureDigestMethod_SHA1 => lit "SHA1" | SignatureDigestMethod_SHA256 => lit "SHA256"
  | SignatureDigestMethod_SHA384 => lit "SHA384" | SignatureDigestMethod_SHA512 => lit "SHA512"
  | SignatureDigestMethod_RIPEMD160 => lit "RIPEMD160"
  end.

(** src/forms.rs:909, 919-925 [to_name]. *)
Inductive LockingIntent :=
  | LockingIntent_Lock | LockingIntent_DoNotLock | LockingIntent_Auto.
Definition LockingIntent_name (x : LockingIntent) : bytes :=
  match x with
  | LockingIntent_Lock => lit "true" | LockingIntent_DoNotLock => lit "false"
  | LockingIntent_Auto => lit "auto"
  end.

(** src/forms.rs:1159, 1169-1174 [to_name]. *)
Inductive CertificateUrlType :=
  | CertificateUrlType_Browser | CertificateUrlType_Custom (name : bytes).
Definition CertificateUrlType_name (x : CertificateUrlType) : bytes :=
  match x with
  | CertificateUrlType_Browser => lit "Browser" | CertificateUrlType_Custom name => name
  end.

(** src/renditions.rs:204, 212-217 [to_name]. *)
Inductive RenditionType :=
  | RenditionType_Media | RenditionType_Selector.
Definition RenditionType_name (x : RenditionType) : bytes :=
  match x with
  | RenditionType_Media => lit "MR" | RenditionType_Selector => lit "SR"
  end.

(** src/renditions.rs:222, 230-235 [to_name]. *)
Inductive MediaClipType :=
  | MediaClipType_Data | MediaClipType_Section.
Definition MediaClipType_name (x : MediaClipType) : bytes :=
  match x with
  | MediaClipType_Data => lit "MCD" | MediaClipType_Section => lit "MCS"
  end.

(** src/structure.rs:164, 185-194 [to_name]. *)
Inductive PageLayout :=
  | PageLayout_SinglePage | PageLayout_OneColumn | PageLayout_TwoColumnLeft | PageLayout_TwoColumnRight
  | PageLayout_TwoPageLeft | PageLayout_TwoPageRight.
Definition PageLayout_name (x : PageLayout) : bytes :=
  match x with
  | PageLayout_SinglePage => lit "SinglePage" | PageLayout_OneColumn => lit "OneColumn"
  | PageLayout_TwoColumnLeft => lit "TwoColumnLeft" | PageLayout_TwoColumnRight => lit "TwoColumnRight"
  | PageLayout_TwoPageLeft => lit "TwoPageLeft" | PageLayout_TwoPageRight => lit "TwoPageRight"
  end.

(** src/structure.rs:200, 218-227 [to_name]. *)
Inductive PageMode :=
  | PageMode_UseNone | PageMode_UseOutlines | PageMode_UseThumbs | PageMode_FullScreen | PageMode_UseOC
  | PageMode_UseAttachments.
Definition PageMode_name (x : PageMode) : bytes :=
  match x with
  | PageMode_UseNone => lit "UseNone" | PageMode_UseOutlines => lit "UseOutlines"
  | PageMode_UseThumbs => lit "UseThumbs" | PageMode_FullScreen => lit "FullScreen"
  | PageMode_UseOC => lit "UseOC" | PageMode_UseAttachments => lit "UseAttachments"
  end.

(** src/structure.rs:771, 875-927 [to_name]. *)
Inductive StructRole :=
  | StructRole_Document | StructRole_Part | StructRole_Art | StructRole_Sect | StructRole_Div
  | StructRole_BlockQuote | StructRole_Caption | StructRole_TOC | StructRole_TOCI | StructRole_Index
  | StructRole_NonStruct | StructRole_Private | StructRole_P | StructRole_StructuredHeading | StructRole_H1
  | StructRole_H2 | StructRole_H3 | StructRole_H4 | StructRole_H5 | StructRole_H6 | StructRole_L
  | StructRole_LI | StructRole_Lbl | StructRole_LBody | StructRole_Table | StructRole_TR | StructRole_TH
  | StructRole_TD | StructRole_THead | StructRole_TBody | StructRole_TFoot | StructRole_Span
  | StructRole_Quote | StructRole_Note | StructRole_Reference | StructRole_BibEntry | StructRole_Code
  | StructRole_Link | StructRole_Annot | StructRole_Ruby | StructRole_Warichu | StructRole_RB | StructRole_RT
  | StructRole_RP | StructRole_WT | StructRole_WP | StructRole_Figure | StructRole_Formula | StructRole_Form.
Definition StructRole_name (x : StructRole) : bytes :=
  match x with
  | StructRole_Document => lit "Document" | StructRole_Part => lit "Part" | StructRole_Art => lit "Art"
  | StructRole_Sect => lit "Sect" | StructRole_Div => lit "Div" | StructRole_BlockQuote => lit "BlockQuote"
  | StructRole_Caption => lit "Caption" | StructRole_TOC => lit "TOC" | StructRole_TOCI => lit "TOCI"
  | StructRole_Index => lit "Index" | StructRole_NonStruct => lit "NonStruct"
  | StructRole_Private => lit "Private" | StructRole_P => lit "P" | StructRole_StructuredHeading => lit "H"
  | StructRole_H1 => lit "H1" | StructRole_H2 => lit "H2" | StructRole_H3 => lit "H3"
  | StructRole_H4 => lit "H4" | StructRole_H5 => lit "H5" | StructRole_H6 => lit "H6"
  | StructRole_L => lit "L" | StructRole_LI => lit "LI" | StructRole_Lbl => lit "Lbl"
  | StructRole_LBody => lit "LBody" | StructRole_Table => lit "Table" | StructRole_TR => lit "TR"
  | StructRole_TH => lit "TH" | StructRole_TD => lit "TD" | StructRole_THead => lit "THead"
  | StructRole_TBody => lit "TBody" | StructRole_TFoot => lit "TFoot" | StructRole_Span => lit "Span"
  | StructRole_Quote => lit "Quote" | StructRole_Note => lit "Note" | StructRole_Reference => lit "Reference"
  | StructRole_BibEntry => lit "BibEntry" | StructRole_Code => lit "Code" | StructRole_Link => lit "Link"
  | StructRole_Annot => lit "Annot" | StructRole_Ruby => lit "Ruby" | StructRole_Warichu => lit "Warichu"
  | StructRole_RB => lit "RB" | StructRole_RT => lit "RT" | StructRole_RP => lit "RP"
  | StructRole_WT => lit "WT" | StructRole_WP => lit "WP" | StructRole_Figure => lit "Figure"
  | StructRole_Formula => lit "Formula" | StructRole_Form => lit "Form"
  end.

(** src/structure.rs:1485, 1500-1508 [to_name]. *)
Inductive PhoneticAlphabet :=
  | PhoneticAlphabet_Ipa | PhoneticAlphabet_XSampa | PhoneticAlphabet_Pinyin | PhoneticAlphabet_WadeGiles
  | PhoneticAlphabet_Custom (name : bytes).
Definition PhoneticAlphabet_name (x : PhoneticAlphabet) : bytes :=
  match x with
  | PhoneticAlphabet_Ipa => lit "ipa" | PhoneticAlphabet_XSampa => lit "x-sampa"
  | PhoneticAlphabet_Pinyin => lit "zh-Latn-pinyin" | PhoneticAlphabet_WadeGiles => lit "zh-Latn-wadegile"
  | PhoneticAlphabet_Custom name => name
  end.

(** src/structure.rs:1654, 1663-1668 [to_name]. *)
Inductive Direction :=
  | Direction_L2R | Direction_R2L.
Definition Direction_name (x : Direction) : bytes :=
  match x with
  | Direction_L2R => lit "L2R" | Direction_R2L => lit "R2L"
  end.

(** src/structure.rs:1711, 1725-1733 [to_name]. *)
Inductive NumberingStyle :=
  | NumberingStyle_Arabic | NumberingStyle_LowerRoman | NumberingStyle_UpperRoman | NumberingStyle_LowerAlpha
  | NumberingStyle_UpperAlpha.
Definition NumberingStyle_name (x : NumberingStyle) : bytes :=
  match x with
  | NumberingStyle_Arabic => lit "D" | NumberingStyle_LowerRoman => lit "r"
  | NumberingStyle_UpperRoman => lit "R" | NumberingStyle_LowerAlpha => lit "a"
  | NumberingStyle_UpperAlpha => lit "A"
  end.

(** src/structure.rs:1815, 1826-1832 [to_name]. *)
Inductive TrappingStatus :=
  | TrappingStatus_Trapped | TrappingStatus_NotTrapped | TrappingStatus_Unknown.
Definition TrappingStatus_name (x : TrappingStatus) : bytes :=
  match x with
  | TrappingStatus_Trapped => lit "True" | TrappingStatus_NotTrapped => lit "False"
  | TrappingStatus_Unknown => lit "Unknown"
  end.

(** src/structure.rs:2353, 2363-2369 [to_name]. *)
Inductive TabOrder :=
  | TabOrder_RowOrder | TabOrder_ColumnOrder | TabOrder_StructureOrder.
Definition TabOrder_name (x : TabOrder) : bytes :=
  match x with
  | TabOrder_RowOrder => lit "R" | TabOrder_ColumnOrder => lit "C" | TabOrder_StructureOrder => lit "S"
  end.

(** src/transitions.rs:69, 98-113 [to_name]. *)
Inductive TransitionStyle :=
  | TransitionStyle_Split | TransitionStyle_Blinds | TransitionStyle_Box | TransitionStyle_Wipe
  | TransitionStyle_Dissolve | TransitionStyle_Glitter | TransitionStyle_R | TransitionStyle_Fly
  | TransitionStyle_Push | TransitionStyle_Cover | TransitionStyle_Uncover | TransitionStyle_Fade.
Definition TransitionStyle_name (x : TransitionStyle) : bytes :=
  match x with
  | TransitionStyle_Split => lit "Split" | TransitionStyle_Blinds => lit "Blinds"
  | TransitionStyle_Box => lit "Box" | TransitionStyle_Wipe => lit "Wipe"
  | TransitionStyle_Dissolve => lit "Dissolve" | TransitionStyle_Glitter => lit "Glitter"
  | TransitionStyle_R => lit "R" | TransitionStyle_Fly => lit "Fly" | TransitionStyle_Push => lit "Push"
  | TransitionStyle_Cover => lit "Cover" | TransitionStyle_Uncover => lit "Uncover"
  | TransitionStyle_Fade => lit "Fade"
  end.

(** src/content.rs:1132, 1147-1155 [to_name]. *)
Inductive ArtifactType :=
  | ArtifactType_Pagination | ArtifactType_Layout | ArtifactType_Page | ArtifactType_Background
  | ArtifactType_Inline.
Definition ArtifactType_name (x : ArtifactType) : bytes :=
  match x with
  | ArtifactType_Pagination => lit "Pagination" | ArtifactType_Layout => lit "Layout"
  | ArtifactType_Page => lit "Page" | ArtifactType_Background => lit "Background"
  | ArtifactType_Inline => lit "Inline"
  end.

(** src/content.rs:1160, 1181-1192 [to_name]. *)
Inductive ArtifactSubtype :=
  | ArtifactSubtype_Header | ArtifactSubtype_Footer | ArtifactSubtype_Watermark | ArtifactSubtype_PageNumber
  | ArtifactSubtype_Bates | ArtifactSubtype_LineNumber | ArtifactSubtype_Redaction
  | ArtifactSubtype_Custom (name : bytes).
Definition ArtifactSubtype_name (x : ArtifactSubtype) : bytes :=
  match x with
  | ArtifactSubtype_Header => lit "Header" | ArtifactSubtype_Footer => lit "Footer"
  | ArtifactSubtype_Watermark => lit "Watermark" | ArtifactSubtype_PageNumber => lit "PageNum"
  | ArtifactSubtype_Bates => lit "Bates" | ArtifactSubtype_LineNumber => lit "LineNum"
  | ArtifactSubtype_Redaction => lit "Redaction" | ArtifactSubtype_Custom name => name
  end.

(** src/content.rs:1198, 1207-1214 [to_name]. *)
Inductive ArtifactAttachment :=
  | ArtifactAttachment_Left | ArtifactAttachment_Top | ArtifactAttachment_Right | ArtifactAttachment_Bottom.
Definition ArtifactAttachment_name (x : ArtifactAttachment) : bytes :=
  match x with
  | ArtifactAttachment_Left => lit "Left" | ArtifactAttachment_Top => lit "Top"
  | ArtifactAttachment_Right => lit "Right" | ArtifactAttachment_Bottom => lit "Bottom"
  end.

(** src/content.rs:1341, 1355-1363 [to_name]. *)
Inductive ProcSet :=
  | ProcSet_Pdf | ProcSet_Text | ProcSet_ImageGrayscale | ProcSet_ImageColor | ProcSet_ImageIndexed.
Definition ProcSet_name (x : ProcSet) : bytes :=
  match x with
  | ProcSet_Pdf => lit "PDF" | ProcSet_Text => lit "Text" | ProcSet_ImageGrayscale => lit "ImageB"
  | ProcSet_ImageColor => lit "ImageC" | ProcSet_ImageIndexed => lit "ImageI"
  end.

(** src/content.rs:1595, 1616-1635 [to_name]. *)
Inductive BlendMode :=
  | BlendMode_Normal | BlendMode_Multiply | BlendMode_Screen | BlendMode_Overlay | BlendMode_Darken
  | BlendMode_Lighten | BlendMode_ColorDodge | BlendMode_ColorBurn | BlendMode_HardLight
  | BlendMode_SoftLight | BlendMode_Difference | BlendMode_Exclusion | BlendMode_Hue | BlendMode_Saturation
  | BlendMode_Color | BlendMode_Luminosity.
Definition BlendMode_name (x : BlendMode) : bytes :=
  match x with
  | BlendMode_Normal => lit "Normal" | BlendMode_Multiply => lit "Multiply"
  | BlendMode_Screen => lit "Screen" | BlendMode_Overlay => lit "Overlay" | BlendMode_Darken => lit "Darken"
  | BlendMode_Lighten => lit "Lighten" | BlendMode_ColorDodge => lit "ColorDodge"
  | BlendMode_ColorBurn => lit "ColorBurn" | BlendMode_HardLight => lit "HardLight"
  | BlendMode_SoftLight => lit "SoftLight" | BlendMode_Difference => lit "Difference"
  | BlendMode_Exclusion => lit "Exclusion" | BlendMode_Hue => lit "Hue"
  | BlendMode_Saturation => lit "Saturation" | BlendMode_Color => lit "Color"
  | BlendMode_Luminosity => lit "Luminosity"
  end.

(** src/content.rs:1711, 1720-1725 [to_name]. *)
Inductive MaskType :=
  | MaskType_Alpha | MaskType_Luminosity.
Definition MaskType_name (x : MaskType) : bytes :=
  match x with
  | MaskType_Alpha => lit "Alpha" | MaskType_Luminosity => lit "Luminosity"
  end.

(** src/renditions.rs:178, 192-199 [to_str]. *)
Inductive TempFileType :=
  | TempFileType_Never | TempFileType_Extract | TempFileType_Access | TempFileType_Always.
Definition TempFileType_str (x : TempFileType) : bytes :=
  match x with
  | TempFileType_Never => lit "TEMPNEVER" | TempFileType_Extract => lit "TEMPEXTRACT"
  | TempFileType_Access => lit "TEMPACCESS" | TempFileType_Always => lit "TEMPALWAYS"
  end.

(** src/actions.rs:124-135 (written with [as i32]). *)
Inductive RenditionOperation :=
  | RenditionOperation_Play | RenditionOperation_Stop | RenditionOperation_Pause | RenditionOperation_Resume
  | RenditionOperation_PlayOrResume.
Definition RenditionOperation_int (x : RenditionOperation) : Z :=
  match x with
  | RenditionOperation_Play => 0 | RenditionOperation_Stop => 1 | RenditionOperation_Pause => 2
  | RenditionOperation_Resume => 3 | RenditionOperation_PlayOrResume => 4
  end.

(** src/annotations.rs:535-550 (written with [as i32]). *)
Inductive TextPosition :=
  | TextPosition_CaptionOnly | TextPosition_IconOnly | TextPosition_Below | TextPosition_Above
  | TextPosition_Right | TextPosition_Left | TextPosition_Overlaid.
Definition TextPosition_int (x : TextPosition) : Z :=
  match x with
  | TextPosition_CaptionOnly => 0 | TextPosition_IconOnly => 1 | TextPosition_Below => 2
  | TextPosition_Above => 3 | TextPosition_Right => 4 | TextPosition_Left => 5 | TextPosition_Overlaid => 6
  end.

(** src/color.rs:851, 859-864 [to_int]. *)
Inductive PaintType :=
  | PaintType_Colored | PaintType_Uncolored.
Definition PaintType_int (x : PaintType) : Z :=
  match x with
  | PaintType_Colored => 1 | PaintType_Uncolored => 2
  end.

(** src/color.rs:869, 879-885 [to_int]. *)
Inductive TilingType :=
  | TilingType_ConstantSpacing | TilingType_NoDistortion | TilingType_FastConstantSpacing.
Definition TilingType_int (x : TilingType) : Z :=
  match x with
  | TilingType_ConstantSpacing => 1 | TilingType_NoDistortion => 2 | TilingType_FastConstantSpacing => 3
  end.

(** src/color.rs:1149, 1160-1166 [to_int]. *)
Inductive FunctionShadingType :=
  | FunctionShadingType_Function | FunctionShadingType_Axial | FunctionShadingType_Radial.
Definition FunctionShadingType_int (x : FunctionShadingType) : Z :=
  match x with
  | FunctionShadingType_Function => 1 | FunctionShadingType_Axial => 2 | FunctionShadingType_Radial => 3
  end.

(** src/color.rs:1171, 1187-1194 [to_int]. *)
Inductive StreamShadingType :=
  | StreamShadingType_FreeformGouraud | StreamShadingType_LatticeGouraud | StreamShadingType_CoonsPatch
  | StreamShadingType_TensorProductPatch.
Definition StreamShadingType_int (x : StreamShadingType) : Z :=
  match x with
  | StreamShadingType_FreeformGouraud => 4 | StreamShadingType_LatticeGouraud => 5
  | StreamShadingType_CoonsPatch => 6 | StreamShadingType_TensorProductPatch => 7
  end.

(** src/forms.rs:348-355 (written with [as i32]). *)
Inductive Quadding :=
  | Quadding_Left | Quadding_Center | Quadding_Right.
Definition Quadding_int (x : Quadding) : Z :=
  match x with
  | Quadding_Left => 0 | Quadding_Center => 1 | Quadding_Right => 2
  end.

(** src/forms.rs:792, 805-811 [to_int]. *)
Inductive SeedValueParserVersion :=
  | SeedValueParserVersion_Pdf15 | SeedValueParserVersion_Pdf17 | SeedValueParserVersion_Pdf20.
Definition SeedValueParserVersion_int (x : SeedValueParserVersion) : Z :=
  match x with
  | SeedValueParserVersion_Pdf15 => 1 | SeedValueParserVersion_Pdf17 => 2 | SeedValueParserVersion_Pdf20 => 3
  end.

(** src/forms.rs:838, 850-856 [to_int]. *)
Inductive AccessPermissions :=
  | AccessPermissions_NoChanges | AccessPermissions_FillAndSign | AccessPermissions_Annotations.
Definition AccessPermissions_int (x : AccessPermissions) : Z :=
  match x with
  | AccessPermissions_NoChanges => 1 | AccessPermissions_FillAndSign => 2
  | AccessPermissions_Annotations => 3
  end.

(** src/functions.rs:108, 117-122 [to_int]. *)
Inductive InterpolationOrder :=
  | InterpolationOrder_Linear | InterpolationOrder_Cubic.
Definition InterpolationOrder_int (x : InterpolationOrder) : Z :=
  match x with
  | InterpolationOrder_Linear => 1 | InterpolationOrder_Cubic => 3
  end.

(** src/xobject.rs:169, 181-187 [to_int]. *)
Inductive SMaskInData :=
  | SMaskInData_Ignore | SMaskInData_Use | SMaskInData_Preblended.
Definition SMaskInData_int (x : SMaskInData) : Z :=
  match x with
  | SMaskInData_Ignore => 0 | SMaskInData_Use => 1 | SMaskInData_Preblended => 2
  end.

(** src/object.rs:1400, 1417-1428 [to_i32]. *)
Inductive Predictor :=
  | Predictor_None | Predictor_Tiff | Predictor_PngNone | Predictor_PngSub | Predictor_PngUp
  | Predictor_PngAverage | Predictor_PngPaeth | Predictor_PngOptimum.
Definition Predictor_int (x : Predictor) : Z :=
  match x with
  | Predictor_None => 1 | Predictor_Tiff => 2 | Predictor_PngNone => 10 | Predictor_PngSub => 11
  | Predictor_PngUp => 12 | Predictor_PngAverage => 13 | Predictor_PngPaeth => 14
  | Predictor_PngOptimum => 15
  end.

(** src/content.rs:1640, 1655-1660 [to_int]. *)
Inductive OverprintMode :=
  | OverprintMode_OverrideAllColorants | OverprintMode_IgnoreZeroChannel.
Definition OverprintMode_int (x : OverprintMode) : Z :=
  match x with
  | OverprintMode_OverrideAllColorants => 0 | OverprintMode_IgnoreZeroChannel => 1
  end.

(** src/attributes.rs:1155, 1203-1227 [to_name(iso32000_2_2020)]. *)
Inductive AttributeOwner :=
  | AttributeOwner_Layout | AttributeOwner_List | AttributeOwner_PrintField | AttributeOwner_Table
  | AttributeOwner_Artifact | AttributeOwner_Xml | AttributeOwner_Html3_2 | AttributeOwner_Html4
  | AttributeOwner_Html5 | AttributeOwner_Oeb | AttributeOwner_Rtf1_05 | AttributeOwner_Css1
  | AttributeOwner_Css2 | AttributeOwner_Css3 | AttributeOwner_Rdfa1_1 | AttributeOwner_Aria1_1
  | AttributeOwner_FENote | AttributeOwner_NSO | AttributeOwner_User.
Definition AttributeOwner_name (x : AttributeOwner) (iso32000_2_2020 : bool) : bytes :=
  match x with
  | AttributeOwner_Layout => lit "Layout" | AttributeOwner_List => lit "List"
  | AttributeOwner_PrintField => lit "PrintField" | AttributeOwner_Table => lit "Table"
  | AttributeOwner_Artifact => lit "Artifact" | AttributeOwner_Xml => lit "XML-1.00"
  | AttributeOwner_Html3_2 => lit "HTML-3.20" | AttributeOwner_Html4 => lit "HTML-4.01"
  | AttributeOwner_Html5 => lit "HTML-5.00" | AttributeOwner_Oeb => lit "OEB-1.00"
  | AttributeOwner_Rtf1_05 => lit "RTF-1.05"
  | AttributeOwner_Css1 => if iso32000_2_2020 then lit "CSS-1" else lit "CSS-1.00"
  | AttributeOwner_Css2 => if iso32000_2_2020 then lit "CSS-2" else lit "CSS-2.00"
  | AttributeOwner_Css3 => lit "CSS-3" | AttributeOwner_Rdfa1_1 => lit "RDFa-1.10"
  | AttributeOwner_Aria1_1 => lit "ARIA-1.1" | AttributeOwner_FENote => lit "FENote"
  | AttributeOwner_NSO => lit "NSO" | AttributeOwner_User => lit "UserProperties"
  end.

(** src/actions.rs:236 (a bitflags type; [as i32] keeps the value as all flags are below bit 31). *)
Inductive FormActionFlags :=
  | FormActionFlags_IncludeExclude | FormActionFlags_IncludeNoValueFields | FormActionFlags_ExportFormat
  | FormActionFlags_GetMethod | FormActionFlags_SubmitCoordinates | FormActionFlags_Xfdf
  | FormActionFlags_IncludeAppendSaves | FormActionFlags_IncludeAnnotations | FormActionFlags_SubmitPdf
  | FormActionFlags_CanonicalFormat | FormActionFlags_ExcludeNonUserAnnots | FormActionFlags_ExcludeFKey
  | FormActionFlags_EmbedForm.
Definition FormActionFlags_bit (x : FormActionFlags) : Z :=
  match x with
  | FormActionFlags_IncludeExclude => 1 | FormActionFlags_IncludeNoValueFields => 2
  | FormActionFlags_ExportFormat => Z.shiftl 1 2 | FormActionFlags_GetMethod => Z.shiftl 1 3
  | FormActionFlags_SubmitCoordinates => Z.shiftl 1 4 | FormActionFlags_Xfdf => Z.shiftl 1 5
  | FormActionFlags_IncludeAppendSaves => Z.shiftl 1 6 | FormActionFlags_IncludeAnnotations => Z.shiftl 1 7
  | FormActionFlags_SubmitPdf => Z.shiftl 1 8 | FormActionFlags_CanonicalFormat => Z.shiftl 1 9
  | FormActionFlags_ExcludeNonUserAnnots => Z.shiftl 1 10 | FormActionFlags_ExcludeFKey => Z.shiftl 1 11
  | FormActionFlags_EmbedForm => Z.shiftl 1 13
  end.

(** src/annotations.rs:346 (a bitflags type; [as i32] keeps the value as all flags are below bit 31). *)
Inductive AnnotationFlags :=
  | AnnotationFlags_Invisible | AnnotationFlags_Hidden | AnnotationFlags_Print | AnnotationFlags_NoZoom
  | AnnotationFlags_NoRotate | AnnotationFlags_NoView | AnnotationFlags_ReadOnly | AnnotationFlags_Locked
  | AnnotationFlags_ToggleNoView | AnnotationFlags_LockedContents.
Definition AnnotationFlags_bit (x : AnnotationFlags) : Z :=
  match x with
  | AnnotationFlags_Invisible => Z.shiftl 1 0 | AnnotationFlags_Hidden => Z.shiftl 1 1
  | AnnotationFlags_Print => Z.shiftl 1 2 | AnnotationFlags_NoZoom => Z.shiftl 1 3
  | AnnotationFlags_NoRotate => Z.shiftl 1 4 | AnnotationFlags_NoView => Z.shiftl 1 5
  | AnnotationFlags_ReadOnly => Z.shiftl 1 6 | AnnotationFlags_Locked => Z.shiftl 1 7
  | AnnotationFlags_ToggleNoView => Z.shiftl 1 8 | AnnotationFlags_LockedContents => Z.shiftl 1 9
  end.

(** src/font.rs:744 (a bitflags type; [as i32] keeps the value as all flags are below bit 31). *)
Inductive FontFlags :=
  | FontFlags_FixedPitch | FontFlags_Serif | FontFlags_Symbolic | FontFlags_Script | FontFlags_NonSymbolic
  | FontFlags_Italic | FontFlags_AllCap | FontFlags_SmallCap | FontFlags_ForceBold.
Definition FontFlags_bit (x : FontFlags) : Z :=
  match x with
  | FontFlags_FixedPitch => Z.shiftl 1 0 | FontFlags_Serif => Z.shiftl 1 1
  | FontFlags_Symbolic => Z.shiftl 1 2 | FontFlags_Script => Z.shiftl 1 3
  | FontFlags_NonSymbolic => Z.shiftl 1 5 | FontFlags_Italic => Z.shiftl 1 6
  | FontFlags_AllCap => Z.shiftl 1 16 | FontFlags_SmallCap => Z.shiftl 1 17
  | FontFlags_ForceBold => Z.shiftl 1 18
  end.

(** src/forms.rs:69 (a bitflags type; [as i32] keeps the value as all flags are below bit 31). *)
Inductive SigFlags :=
  | SigFlags_SignaturesExist | SigFlags_AppendOnly.
Definition SigFlags_bit (x : SigFlags) : Z :=
  match x with
  | SigFlags_SignaturesExist => 1 | SigFlags_AppendOnly => 2
  end.

(** src/forms.rs:740 (a bitflags type; [as i32] keeps the value as all flags are below bit 31). *)
Inductive SignatureSeedValueFlags :=
  | SignatureSeedValueFlags_Filter | SignatureSeedValueFlags_SubFilter | SignatureSeedValueFlags_Version
  | SignatureSeedValueFlags_Reasons | SignatureSeedValueFlags_LegalAttestation
  | SignatureSeedValueFlags_AddRevInfo | SignatureSeedValueFlags_DigestMethod
  | SignatureSeedValueFlags_LockDocument | SignatureSeedValueFlags_AppearanceFilter.
Definition SignatureSeedValueFlags_bit (x : SignatureSeedValueFlags) : Z :=
  match x with
  | SignatureSeedValueFlags_Filter => Z.shiftl 1 0 | SignatureSeedValueFlags_SubFilter => Z.shiftl 1 1
  | SignatureSeedValueFlags_Version => Z.shiftl 1 2 | SignatureSeedValueFlags_Reasons => Z.shiftl 1 3
  | SignatureSeedValueFlags_LegalAttestation => Z.shiftl 1 4
  | SignatureSeedValueFlags_AddRevInfo => Z.shiftl 1 5 | SignatureSeedValueFlags_DigestMethod => Z.shiftl 1 6
  | SignatureSeedValueFlags_LockDocument => Z.shiftl 1 7
  | SignatureSeedValueFlags_AppearanceFilter => Z.shiftl 1 8
  end.

(** src/forms.rs:1085 (a bitflags type; [as i32] keeps the value as all flags are below bit 31). *)
Inductive CertificateSeedValueFlags :=
  | CertificateSeedValueFlags_Subject | CertificateSeedValueFlags_Issuer | CertificateSeedValueFlags_Oid
  | CertificateSeedValueFlags_SubjectDn | CertificateSeedValueFlags_KeyUsage | CertificateSeedValueFlags_Url.
Definition CertificateSeedValueFlags_bit (x : CertificateSeedValueFlags) : Z :=
  match x with
  | CertificateSeedValueFlags_Subject => Z.shiftl 1 0 | CertificateSeedValueFlags_Issuer => Z.shiftl 1 1
  | CertificateSeedValueFlags_Oid => Z.shiftl 1 2 | CertificateSeedValueFlags_SubjectDn => Z.shiftl 1 3
  | CertificateSeedValueFlags_KeyUsage => Z.shiftl 1 5 | CertificateSeedValueFlags_Url => Z.shiftl 1 6
  end.

(** src/forms.rs:1179 (a bitflags type; [as i32] keeps the value as all flags are below bit 31). *)
Inductive FieldFlags :=
  | FieldFlags_ReadOnly | FieldFlags_Required | FieldFlags_NoExport | FieldFlags_DoNotSpellCheck
  | FieldFlags_NoToggleToOff | FieldFlags_Radio | FieldFlags_Pushbutton | FieldFlags_RadiosInUnison
  | FieldFlags_Multiline | FieldFlags_Password | FieldFlags_FileSelect | FieldFlags_DoNotScroll
  | FieldFlags_Comb | FieldFlags_RichText | FieldFlags_Combo | FieldFlags_Edit | FieldFlags_Sort
  | FieldFlags_MultiSelect | FieldFlags_CommitOnSelChange.
Definition FieldFlags_bit (x : FieldFlags) : Z :=
  match x with
  | FieldFlags_ReadOnly => Z.shiftl 1 0 | FieldFlags_Required => Z.shiftl 1 1
  | FieldFlags_NoExport => Z.shiftl 1 2 | FieldFlags_DoNotSpellCheck => Z.shiftl 1 22
  | FieldFlags_NoToggleToOff => Z.shiftl 1 14 | FieldFlags_Radio => Z.shiftl 1 15
  | FieldFlags_Pushbutton => Z.shiftl 1 16 | FieldFlags_RadiosInUnison => Z.shiftl 1 25
  | FieldFlags_Multiline => Z.shiftl 1 12 | FieldFlags_Password => Z.shiftl 1 13
  | FieldFlags_FileSelect => Z.shiftl 1 20 | FieldFlags_DoNotScroll => Z.shiftl 1 23
  | FieldFlags_Comb => Z.shiftl 1 24 | FieldFlags_RichText => Z.shiftl 1 25
  | FieldFlags_Combo => Z.shiftl 1 17 | FieldFlags_Edit => Z.shiftl 1 18 | FieldFlags_Sort => Z.shiftl 1 19
  | FieldFlags_MultiSelect => Z.shiftl 1 21 | FieldFlags_CommitOnSelChange => Z.shiftl 1 26
  end.

(** src/structure.rs:2189 (a bitflags type; [as i32] keeps the value as all flags are below bit 31). *)
Inductive OutlineItemFlags :=
  | OutlineItemFlags_Italic | OutlineItemFlags_Bold.
Definition OutlineItemFlags_bit (x : OutlineItemFlags) : Z :=
  match x with
  | OutlineItemFlags_Italic => Z.shiftl 1 0 | OutlineItemFlags_Bold => Z.shiftl 1 1
  end.
