# Tables of the standard (ISO 32000-2:2020, by hand), used for SpecEnums.v only: name or number in
# the file -> meaning.  "A B=b" : variant A is written /A, variant B is written /b.
N = {
 'ActionType': ('Table 201', 'GoTo RemoteGoTo=GoToR Launch Uri=URI Rendition SubmitForm ResetForm ImportData JavaScript'),
 'AnnotationType': ('Table 171', 'Text Link Line Square Circle Highlight Underline Squiggly StrikeOut FileAttachment Screen Widget'),
 'AnnotationIcon': ('Tables 175 and 187', 'Comment Key Note Help NewParagraph Paragraph Insert Graph PushPin Paperclip Tag'),
 'IconScale': ('Table 250, SW', 'Always=A Bigger=B Smaller=S Never=N'),
 'IconScaleType': ('Table 250, S', 'Anamorphic=A Proportional=P'),
 'HighlightEffect': ('Table 176, H', 'None=N Invert=I Outline=O Push=P'),
 'BorderType': ('Table 168, S', 'Solid=S Dashed=D Beveled=B Inset=I Underline=U'),
 'Placement': ('Table 378, Placement', 'Block Inline Before Start End'),
 'WritingMode': ('Table 378, WritingMode', 'LtrTtb=LrTb RtlTtb=RlTb TtbRtl=TbRl'),
 'TextAlign': ('Table 378, TextAlign', 'Start Center End Justify'),
 'BlockAlign': ('Table 378, BlockAlign', 'Before Middle After Justify'),
 'InlineAlign': ('Table 378, InlineAlign', 'Start Center End'),
 'LayoutTextPosition': ('Table 378, TextPosition', 'Superscript=Sup Subscript=Sub Normal'),
 'TextDecorationType': ('Table 379, TextDecorationType', 'None Underline Overline LineThrough'),
 'RubyAlign': ('Table 379, RubyAlign', 'Start Center End Justify Distribute'),
 'RubyPosition': ('Table 379, RubyPosition', 'Before After Warichu Inline'),
 'ListNumbering': ('Table 382, ListNumbering', 'None Unordered Description Disc Circle Square Ordered Decimal UpperRoman LowerRoman UpperAlpha LowerAlpha'),
 'FieldRole': ('Table 383, Role', 'RadioButton=rb CheckBox=cb Button=pb TextField=tv ListBox=lb'),
 'FieldState': ('Table 383, Checked', 'Checked=on Unchecked=off Neutral=neutral'),
 'TableHeaderScope': ('Table 384, Scope', 'Row Column Both'),
 'NoteType': ('Table 386, NoteType', 'Footnote Endnote None'),
 'OutputIntentSubtype': ('Table 401, S', 'PDFX=GTS_PDFX PDFA=GTS_PDFA1 PDFE=ISO_PDFE1'),
 'AssociationKind': ('Table 43, AFRelationship', 'Source Data Alternative Supplement EncryptedPayload FormData Schema Unspecified'),
 'CidFontType': ('Table 115, Subtype', 'Type0=CIDFontType0 Type2=CIDFontType2'),
 'CjkClass': ('Tables 122 and 123', 'Alphabetic AlphaNum Dingbats DingbatsRot Generic GenericRot Hangul Hanja Hanzi HRoman HRomanRot HKana HKanaRot HojoKanji Kana Kanji Proportional ProportionalRot Ruby'),
 'FontStretch': ('Table 120, FontStretch', 'UltraCondensed ExtraCondensed Condensed SemiCondensed Normal SemiExpanded Expanded ExtraExpanded UltraExpanded'),
 'FieldType': ('Table 226, FT', 'Button=Btn Text=Tx Choice=Ch Signature=Sig'),
 'CheckBoxState': ('12.7.5.2.3', 'Yes Off'),
 'SignatureLockAction': ('Table 236, Action', 'All Include Exclude'),
 'SignatureDigestMethod': ('Table 237, DigestMethod', 'SHA1 SHA256 SHA384 SHA512 RIPEMD160'),
 'LockingIntent': ('Table 237, LockDocument', 'Lock=true DoNotLock=false Auto=auto'),
 'CertificateUrlType': ('Table 238, URLType', 'Browser'),
 'RenditionType': ('Table 275, S', 'Media=MR Selector=SR'),
 'MediaClipType': ('Table 282, S', 'Data=MCD Section=MCS'),
 'PageLayout': ('Table 29, PageLayout', 'SinglePage OneColumn TwoColumnLeft TwoColumnRight TwoPageLeft TwoPageRight'),
 'PageMode': ('Table 29, PageMode', 'UseNone UseOutlines UseThumbs FullScreen UseOC UseAttachments'),
 'StructRole': ('ISO 32000-1, 14.8.4', 'Document Part Art Sect Div BlockQuote Caption TOC TOCI Index NonStruct Private P StructuredHeading=H H1 H2 H3 H4 H5 H6 L LI Lbl LBody Table TR TH TD THead TBody TFoot Span Quote Note Reference BibEntry Code Link Annot Ruby RB RT RP Warichu WT WP Figure Formula Form'),
 'PhoneticAlphabet': ('Table 355, PhoneticAlphabet', 'Ipa=ipa XSampa=x-sampa Pinyin=zh-Latn-pinyin WadeGiles=zh-Latn-wadegile'),
 'Direction': ('Table 147, Direction', 'L2R R2L'),
 'NumberingStyle': ('Table 161, S', 'Arabic=D UpperRoman=R LowerRoman=r UpperAlpha=A LowerAlpha=a'),
 'TrappingStatus': ('Table 349, Trapped', 'Trapped=True NotTrapped=False Unknown'),
 'TabOrder': ('Table 31, Tabs', 'RowOrder=R ColumnOrder=C StructureOrder=S'),
 'TransitionStyle': ('Table 164, S', 'Split Blinds Box Wipe Dissolve Glitter R Fly Push Cover Uncover Fade'),
 'ArtifactType': ('Table 363, Type', 'Pagination Layout Page Background Inline'),
 'ArtifactSubtype': ('Table 363, Subtype', 'Header Footer Watermark PageNumber=PageNum LineNumber=LineNum Bates Redaction'),
 'ArtifactAttachment': ('Table 363, Attached', 'Top Bottom Left Right'),
 'ProcSet': ('Table 346', 'Pdf=PDF Text ImageGrayscale=ImageB ImageColor=ImageC ImageIndexed=ImageI'),
 'BlendMode': ('Tables 134 and 135', 'Normal Multiply Screen Overlay Darken Lighten ColorDodge ColorBurn HardLight SoftLight Difference Exclusion Hue Saturation Color Luminosity'),
 'MaskType': ('Table 142, S', 'Alpha Luminosity'),
 'RenderingIntent': ('Table 69', 'AbsoluteColorimetric RelativeColorimetric Saturation Perceptual'),
}
# Attribute owners (Table 376): the CSS names differ between the editions of the standard.
OWNER_2020 = 'Layout List PrintField Table Artifact Xml=XML-1.00 Html3_2=HTML-3.20 Html4=HTML-4.01 Html5=HTML-5.00 Oeb=OEB-1.00 Rtf1_05=RTF-1.05 Css1=CSS-1 Css2=CSS-2 Css3=CSS-3 Rdfa1_1=RDFa-1.10 Aria1_1=ARIA-1.1 FENote NSO User=UserProperties'
OWNER_OLD = OWNER_2020.replace('CSS-1 ','CSS-1.00 ').replace('CSS-2 ','CSS-2.00 ')
STR = { 'TempFileType': ('Table 281, TF', 'Never=TEMPNEVER Extract=TEMPEXTRACT Access=TEMPACCESS Always=TEMPALWAYS') }
I = {
 'RenditionOperation': ('Table 218, OP', 'Play=0 Stop=1 Pause=2 Resume=3 PlayOrResume=4'),
 'TextPosition': ('Table 192, TP', 'CaptionOnly=0 IconOnly=1 Below=2 Above=3 Right=4 Left=5 Overlaid=6'),
 'PaintType': ('Table 74, PaintType', 'Colored=1 Uncolored=2'),
 'TilingType': ('Table 74, TilingType', 'ConstantSpacing=1 NoDistortion=2 FastConstantSpacing=3'),
 'FunctionShadingType': ('Table 77, ShadingType', 'Function=1 Axial=2 Radial=3'),
 'StreamShadingType': ('Table 77, ShadingType', 'FreeformGouraud=4 LatticeGouraud=5 CoonsPatch=6 TensorProductPatch=7'),
 'Quadding': ('Table 228, Q', 'Left=0 Center=1 Right=2'),
 'SeedValueParserVersion': ('Table 237, V', 'Pdf15=1 Pdf17=2 Pdf20=3'),
 'AccessPermissions': ('Tables 236 and 257, P', 'NoChanges=1 FillAndSign=2 Annotations=3'),
 'InterpolationOrder': ('Table 39, Order', 'Linear=1 Cubic=3'),
 'SMaskInData': ('Table 87, SMaskInData', 'Ignore=0 Use=1 Preblended=2'),
 'Predictor': ('Table 10', 'None=1 Tiff=2 PngNone=10 PngSub=11 PngUp=12 PngAverage=13 PngPaeth=14 PngOptimum=15'),
 'LineCapStyle': ('Table 53', 'ButtCap=0 RoundCap=1 ProjectingSquareCap=2'),
 'LineJoinStyle': ('Table 54', 'MiterJoin=0 RoundJoin=1 BevelJoin=2'),
 'OverprintMode': ('Table 57, OPM', 'OverrideAllColorants=0 IgnoreZeroChannel=1'),
 'WMode': ('Table 118, WMode', 'Horizontal=0 Vertical=1'),
}
# Positions (from 1, low-order first) of the flags.
F = {
 'FormActionFlags': ('Tables 240 and 241', 'INCLUDE_EXCLUDE=1 INCLUDE_NO_VALUE_FIELDS=2 EXPORT_FORMAT=3 GET_METHOD=4 SUBMIT_COORDINATES=5 XFDF=6 INCLUDE_APPEND_SAVES=7 INCLUDE_ANNOTATIONS=8 SUBMIT_PDF=9 CANONICAL_FORMAT=10 EXCLUDE_NON_USER_ANNOTS=11 EXCLUDE_F_KEY=12 EMBED_FORM=14'),
 'AnnotationFlags': ('Table 167', 'INVISIBLE=1 HIDDEN=2 PRINT=3 NO_ZOOM=4 NO_ROTATE=5 NO_VIEW=6 READ_ONLY=7 LOCKED=8 TOGGLE_NO_VIEW=9 LOCKED_CONTENTS=10'),
 'FontFlags': ('Table 121', 'FIXED_PITCH=1 SERIF=2 SYMBOLIC=3 SCRIPT=4 NON_SYMBOLIC=6 ITALIC=7 ALL_CAP=17 SMALL_CAP=18 FORCE_BOLD=19'),
 'SigFlags': ('Table 225', 'SIGNATURES_EXIST=1 APPEND_ONLY=2'),
 'SignatureSeedValueFlags': ('Table 237, Ff', 'FILTER=1 SUB_FILTER=2 VERSION=3 REASONS=4 LEGAL_ATTESTATION=5 ADD_REV_INFO=6 DIGEST_METHOD=7 LOCK_DOCUMENT=8 APPEARANCE_FILTER=9'),
 'CertificateSeedValueFlags': ('Table 238, Ff', 'SUBJECT=1 ISSUER=2 OID=3 SUBJECT_DN=4 KEY_USAGE=6 URL=7'),
 'FieldFlags': ('Tables 227, 229, 231 and 233', 'READ_ONLY=1 REQUIRED=2 NO_EXPORT=3 MULTILINE=13 PASSWORD=14 NO_TOGGLE_TO_OFF=15 RADIO=16 PUSHBUTTON=17 COMBO=18 EDIT=19 SORT=20 FILE_SELECT=21 MULTI_SELECT=22 DO_NOT_SPELL_CHECK=23 DO_NOT_SCROLL=24 COMB=25 RADIOS_IN_UNISON=26 RICH_TEXT=26 COMMIT_ON_SEL_CHANGE=27'),
 'OutlineItemFlags': ('Table 152', 'ITALIC=1 BOLD=2'),
}
