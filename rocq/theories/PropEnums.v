(** C43: enum and flag arguments. *)

From Coq Require Import ZArith List Bool.
From Verif Require ModelContent ModelCmap ModelPdf SpecPdf.
From Verif Require Import Bytes ModelFloat ModelBuf ModelObject ModelTw ModelEnums SpecLex SpecObj SpecMeans SpecTyped SpecColor SpecTw SpecEnums
  ProofTyped ProofTw ProofEnums.
Import ListNotations.
Local Open Scope Z_scope.

(** Every argument that is written as a name reads back, through the table of the standard, as
    that argument: in particular no two variants of an enum are written alike. *)
Theorem C43_names :
  (forall x : ActionType, reads (OPrim (PName (ActionType_name x))) (is_ActionType x)) /\
  (forall x : AnnotationType, reads (OPrim (PName (AnnotationType_name x))) (is_AnnotationType x)) /\
  (forall x : AnnotationIcon, AnnotationIcon_ok x = true -> reads (OPrim (PName (AnnotationIcon_name x))) (is_AnnotationIcon x)) /\
  (forall x : IconScale, reads (OPrim (PName (IconScale_name x))) (is_IconScale x)) /\
  (forall x : IconScaleType, reads (OPrim (PName (IconScaleType_name x))) (is_IconScaleType x)) /\
  (forall x : HighlightEffect, reads (OPrim (PName (HighlightEffect_name x))) (is_HighlightEffect x)) /\
  (forall x : BorderType, reads (OPrim (PName (BorderType_name x))) (is_BorderType x)) /\
  (forall x : Placement, reads (OPrim (PName (Placement_name x))) (is_Placement x)) /\
  (forall x : WritingMode, reads (OPrim (PName (WritingMode_name x))) (is_WritingMode x)) /\
  (forall x : TextAlign, reads (OPrim (PName (TextAlign_name x))) (is_TextAlign x)) /\
  (forall x : BlockAlign, reads (OPrim (PName (BlockAlign_name x))) (is_BlockAlign x)) /\
  (forall x : InlineAlign, reads (OPrim (PName (InlineAlign_name x))) (is_InlineAlign x)) /\
  (forall x : LayoutTextPosition, reads (OPrim (PName (LayoutTextPosition_name x))) (is_LayoutTextPosition x)) /\
  (forall x : TextDecorationType, reads (OPrim (PName (TextDecorationType_name x))) (is_TextDecorationType x)) /\
  (forall x : RubyAlign, reads (OPrim (PName (RubyAlign_name x))) (is_RubyAlign x)) /\
  (forall x : RubyPosition, reads (OPrim (PName (RubyPosition_name x))) (is_RubyPosition x)) /\
  (forall x : ListNumbering, reads (OPrim (PName (ListNumbering_name x))) (is_ListNumbering x)) /\
  (forall x : FieldRole, reads (OPrim (PName (FieldRole_name x))) (is_FieldRole x)) /\
  (forall x : FieldState, reads (OPrim (PName (FieldState_name x))) (is_FieldState x)) /\
  (forall x : TableHeaderScope, reads (OPrim (PName (TableHeaderScope_name x))) (is_TableHeaderScope x)) /\
  (forall x : NoteType, reads (OPrim (PName (NoteType_name x))) (is_NoteType x)) /\
  (forall x : OutputIntentSubtype, OutputIntentSubtype_ok x = true -> reads (OPrim (PName (OutputIntentSubtype_name x))) (is_OutputIntentSubtype x)) /\
  (forall x : AssociationKind, reads (OPrim (PName (AssociationKind_name x))) (is_AssociationKind x)) /\
  (forall x : CidFontType, reads (OPrim (PName (CidFontType_name x))) (is_CidFontType x)) /\
  (forall x : CjkClass, reads (OPrim (PName (CjkClass_name x))) (is_CjkClass x)) /\
  (forall x : FontStretch, reads (OPrim (PName (FontStretch_name x))) (is_FontStretch x)) /\
  (forall x : FieldType, reads (OPrim (PName (FieldType_name x))) (is_FieldType x)) /\
  (forall x : CheckBoxState, reads (OPrim (PName (CheckBoxState_name x))) (is_CheckBoxState x)) /\
  (forall x : SignatureLockAction, reads (OPrim (PName (SignatureLockAction_name x))) (is_SignatureLockAction x)) /\
  (forall x : SignatureDigestMethod, reads (OPrim (PName (SignatureDigestMethod_name x))) (is_SignatureDigestMethod x)) /\
  (forall x : LockingIntent, reads (OPrim (PName (LockingIntent_name x))) (is_LockingIntent x)) /\
  (forall x : CertificateUrlType, CertificateUrlType_ok x = true -> reads (OPrim (PName (CertificateUrlType_name x))) (is_CertificateUrlType x)) /\
  (forall x : RenditionType, reads (OPrim (PName (RenditionType_name x))) (is_RenditionType x)) /\
  (forall x : MediaClipType, reads (OPrim (PName (MediaClipType_name x))) (is_MediaClipType x)) /\
  (forall x : PageLayout, reads (OPrim (PName (PageLayout_name x))) (is_PageLayout x)) /\
  (forall x : PageMode, reads (OPrim (PName (PageMode_name x))) (is_PageMode x)) /\
  (forall x : StructRole, reads (OPrim (PName (StructRole_name x))) (is_StructRole x)) /\
  (forall x : PhoneticAlphabet, PhoneticAlphabet_ok x = true -> reads (OPrim (PName (PhoneticAlphabet_name x))) (is_PhoneticAlphabet x)) /\
  (forall x : Direction, reads (OPrim (PName (Direction_name x))) (is_Direction x)) /\
  (forall x : NumberingStyle, reads (OPrim (PName (NumberingStyle_name x))) (is_NumberingStyle x)) /\
  (forall x : TrappingStatus, reads (OPrim (PName (TrappingStatus_name x))) (is_TrappingStatus x)) /\
  (forall x : TabOrder, reads (OPrim (PName (TabOrder_name x))) (is_TabOrder x)) /\
  (forall x : TransitionStyle, reads (OPrim (PName (TransitionStyle_name x))) (is_TransitionStyle x)) /\
  (forall x : ArtifactType, reads (OPrim (PName (ArtifactType_name x))) (is_ArtifactType x)) /\
  (forall x : ArtifactSubtype, ArtifactSubtype_ok x = true -> reads (OPrim (PName (ArtifactSubtype_name x))) (is_ArtifactSubtype x)) /\
  (forall x : ArtifactAttachment, reads (OPrim (PName (ArtifactAttachment_name x))) (is_ArtifactAttachment x)) /\
  (forall x : ProcSet, reads (OPrim (PName (ProcSet_name x))) (is_ProcSet x)) /\
  (forall x : BlendMode, reads (OPrim (PName (BlendMode_name x))) (is_BlendMode x)) /\
  (forall x : MaskType, reads (OPrim (PName (MaskType_name x))) (is_MaskType x)) /\
  (forall x : ModelContent.rendering_intent, reads (OPrim (PName (ModelContent.rendering_intent_name x))) (is_RenderingIntent x)) /\
  (forall x iso2020, reads (OPrim (PName (AttributeOwner_name x iso2020))) (is_AttributeOwner x iso2020)).
Proof. repeat split; intros; apply good_reads; auto with tw. Qed.

(** Arguments that are written as strings or numbers. *)
Theorem C43_numbers_and_strings :
  (forall x : TempFileType, reads (OPrim (PStr (TempFileType_str x))) (is_TempFileType x)) /\
  (forall x : RenditionOperation, reads (OPrim (PInt (RenditionOperation_int x))) (is_RenditionOperation x)) /\
  (forall x : TextPosition, reads (OPrim (PInt (TextPosition_int x))) (is_TextPosition x)) /\
  (forall x : PaintType, reads (OPrim (PInt (PaintType_int x))) (is_PaintType x)) /\
  (forall x : TilingType, reads (OPrim (PInt (TilingType_int x))) (is_TilingType x)) /\
  (forall x : FunctionShadingType, reads (OPrim (PInt (FunctionShadingType_int x))) (is_FunctionShadingType x)) /\
  (forall x : StreamShadingType, reads (OPrim (PInt (StreamShadingType_int x))) (is_StreamShadingType x)) /\
  (forall x : Quadding, reads (OPrim (PInt (Quadding_int x))) (is_Quadding x)) /\
  (forall x : SeedValueParserVersion, reads (OPrim (PInt (SeedValueParserVersion_int x))) (is_SeedValueParserVersion x)) /\
  (forall x : AccessPermissions, reads (OPrim (PInt (AccessPermissions_int x))) (is_AccessPermissions x)) /\
  (forall x : InterpolationOrder, reads (OPrim (PInt (InterpolationOrder_int x))) (is_InterpolationOrder x)) /\
  (forall x : SMaskInData, reads (OPrim (PInt (SMaskInData_int x))) (is_SMaskInData x)) /\
  (forall x : Predictor, reads (OPrim (PInt (Predictor_int x))) (is_Predictor x)) /\
  (forall x : ModelContent.line_cap, reads (OPrim (PInt (ModelContent.line_cap_int x))) (is_LineCapStyle x)) /\
  (forall x : ModelContent.line_join, reads (OPrim (PInt (ModelContent.line_join_int x))) (is_LineJoinStyle x)) /\
  (forall x : OverprintMode, reads (OPrim (PInt (OverprintMode_int x))) (is_OverprintMode x)) /\
  (forall x : ModelCmap.wmode, reads (OPrim (PInt (ModelCmap.wmode_int x))) (is_WMode x)).
Proof. repeat split; intros; apply good_reads; auto with tw. Qed.

(** Sets of flags: the bits at the positions of the given flags are set, and no others. *)
Theorem C43_flags :
  (forall l, reads (OPrim (PInt (flags_bits FormActionFlags_bit l))) (is_flags FormActionFlags_pos l)) /\
  (forall l, reads (OPrim (PInt (flags_bits AnnotationFlags_bit l))) (is_flags AnnotationFlags_pos l)) /\
  (forall l, reads (OPrim (PInt (flags_bits FontFlags_bit l))) (is_flags FontFlags_pos l)) /\
  (forall l, reads (OPrim (PInt (flags_bits SigFlags_bit l))) (is_flags SigFlags_pos l)) /\
  (forall l, reads (OPrim (PInt (flags_bits SignatureSeedValueFlags_bit l))) (is_flags SignatureSeedValueFlags_pos l)) /\
  (forall l, reads (OPrim (PInt (flags_bits CertificateSeedValueFlags_bit l))) (is_flags CertificateSeedValueFlags_pos l)) /\
  (forall l, reads (OPrim (PInt (flags_bits FieldFlags_bit l))) (is_flags FieldFlags_pos l)) /\
  (forall l, reads (OPrim (PInt (flags_bits OutlineItemFlags_bit l))) (is_flags OutlineItemFlags_pos l)).
Proof. repeat split; intros; apply good_reads; auto with tw. Qed.

(** Two variants that are written with the same name are the same. *)
Theorem C43_distinct :
  (forall x y : ActionType, ActionType_name x = ActionType_name y -> x = y) /\
  (forall x y : AnnotationType, AnnotationType_name x = AnnotationType_name y -> x = y) /\
  (forall x y : AnnotationIcon, (forall n, x <> AnnotationIcon_Custom n) -> (forall n, y <> AnnotationIcon_Custom n) -> AnnotationIcon_name x = AnnotationIcon_name y -> x = y) /\
  (forall x y : IconScale, IconScale_name x = IconScale_name y -> x = y) /\
  (forall x y : IconScaleType, IconScaleType_name x = IconScaleType_name y -> x = y) /\
  (forall x y : HighlightEffect, HighlightEffect_name x = HighlightEffect_name y -> x = y) /\
  (forall x y : BorderType, BorderType_name x = BorderType_name y -> x = y) /\
  (forall x y : Placement, Placement_name x = Placement_name y -> x = y) /\
  (forall x y : WritingMode, WritingMode_name x = WritingMode_name y -> x = y) /\
  (forall x y : TextAlign, TextAlign_name x = TextAlign_name y -> x = y) /\
  (forall x y : BlockAlign, BlockAlign_name x = BlockAlign_name y -> x = y) /\
  (forall x y : InlineAlign, InlineAlign_name x = InlineAlign_name y -> x = y) /\
  (forall x y : LayoutTextPosition, LayoutTextPosition_name x = LayoutTextPosition_name y -> x = y) /\
  (forall x y : TextDecorationType, TextDecorationType_name x = TextDecorationType_name y -> x = y) /\
  (forall x y : RubyAlign, RubyAlign_name x = RubyAlign_name y -> x = y) /\
  (forall x y : RubyPosition, RubyPosition_name x = RubyPosition_name y -> x = y) /\
  (forall x y : ListNumbering, ListNumbering_name x = ListNumbering_name y -> x = y) /\
  (forall x y : FieldRole, FieldRole_name x = FieldRole_name y -> x = y) /\
  (forall x y : FieldState, FieldState_name x = FieldState_name y -> x = y) /\
  (forall x y : TableHeaderScope, TableHeaderScope_name x = TableHeaderScope_name y -> x = y) /\
  (forall x y : NoteType, NoteType_name x = NoteType_name y -> x = y) /\
  (forall x y : OutputIntentSubtype, (forall n, x <> OutputIntentSubtype_Custom n) -> (forall n, y <> OutputIntentSubtype_Custom n) -> OutputIntentSubtype_name x = OutputIntentSubtype_name y -> x = y) /\
  (forall x y : AssociationKind, AssociationKind_name x = AssociationKind_name y -> x = y) /\
  (forall x y : CidFontType, CidFontType_name x = CidFontType_name y -> x = y) /\
  (forall x y : CjkClass, CjkClass_name x = CjkClass_name y -> x = y) /\
  (forall x y : FontStretch, FontStretch_name x = FontStretch_name y -> x = y) /\
  (forall x y : FieldType, FieldType_name x = FieldType_name y -> x = y) /\
  (forall x y : CheckBoxState, CheckBoxState_name x = CheckBoxState_name y -> x = y) /\
  (forall x y : SignatureLockAction, SignatureLockAction_name x = SignatureLockAction_name y -> x = y) /\
  (forall x y : SignatureDigestMethod, SignatureDigestMethod_name x = SignatureDigestMethod_name y -> x = y) /\
  (forall x y : LockingIntent, LockingIntent_name x = LockingIntent_name y -> x = y) /\
  (forall x y : CertificateUrlType, (forall n, x <> CertificateUrlType_Custom n) -> (forall n, y <> CertificateUrlType_Custom n) -> CertificateUrlType_name x = CertificateUrlType_name y -> x = y) /\
  (forall x y : RenditionType, RenditionType_name x = RenditionType_name y -> x = y) /\
  (forall x y : MediaClipType, MediaClipType_name x = MediaClipType_name y -> x = y) /\
  (forall x y : PageLayout, PageLayout_name x = PageLayout_name y -> x = y) /\
  (forall x y : PageMode, PageMode_name x = PageMode_name y -> x = y) /\
  (forall x y : StructRole, StructRole_name x = StructRole_name y -> x = y) /\
  (forall x y : PhoneticAlphabet, (forall n, x <> PhoneticAlphabet_Custom n) -> (forall n, y <> PhoneticAlphabet_Custom n) -> PhoneticAlphabet_name x = PhoneticAlphabet_name y -> x = y) /\
  (forall x y : Direction, Direction_name x = Direction_name y -> x = y) /\
  (forall x y : NumberingStyle, NumberingStyle_name x = NumberingStyle_name y -> x = y) /\
  (forall x y : TrappingStatus, TrappingStatus_name x = TrappingStatus_name y -> x = y) /\
  (forall x y : TabOrder, TabOrder_name x = TabOrder_name y -> x = y) /\
  (forall x y : TransitionStyle, TransitionStyle_name x = TransitionStyle_name y -> x = y) /\
  (forall x y : ArtifactType, ArtifactType_name x = ArtifactType_name y -> x = y) /\
  (forall x y : ArtifactSubtype, (forall n, x <> ArtifactSubtype_Custom n) -> (forall n, y <> ArtifactSubtype_Custom n) -> ArtifactSubtype_name x = ArtifactSubtype_name y -> x = y) /\
  (forall x y : ArtifactAttachment, ArtifactAttachment_name x = ArtifactAttachment_name y -> x = y) /\
  (forall x y : ProcSet, ProcSet_name x = ProcSet_name y -> x = y) /\
  (forall x y : BlendMode, BlendMode_name x = BlendMode_name y -> x = y) /\
  (forall x y : MaskType, MaskType_name x = MaskType_name y -> x = y) /\
  (forall x y : ModelContent.rendering_intent, ModelContent.rendering_intent_name x = ModelContent.rendering_intent_name y -> x = y) /\
  (forall x y : TempFileType, TempFileType_str x = TempFileType_str y -> x = y) /\
  (forall x y : RenditionOperation, RenditionOperation_int x = RenditionOperation_int y -> x = y) /\
  (forall x y : TextPosition, TextPosition_int x = TextPosition_int y -> x = y) /\
  (forall x y : PaintType, PaintType_int x = PaintType_int y -> x = y) /\
  (forall x y : TilingType, TilingType_int x = TilingType_int y -> x = y) /\
  (forall x y : FunctionShadingType, FunctionShadingType_int x = FunctionShadingType_int y -> x = y) /\
  (forall x y : StreamShadingType, StreamShadingType_int x = StreamShadingType_int y -> x = y) /\
  (forall x y : Quadding, Quadding_int x = Quadding_int y -> x = y) /\
  (forall x y : SeedValueParserVersion, SeedValueParserVersion_int x = SeedValueParserVersion_int y -> x = y) /\
  (forall x y : AccessPermissions, AccessPermissions_int x = AccessPermissions_int y -> x = y) /\
  (forall x y : InterpolationOrder, InterpolationOrder_int x = InterpolationOrder_int y -> x = y) /\
  (forall x y : SMaskInData, SMaskInData_int x = SMaskInData_int y -> x = y) /\
  (forall x y : Predictor, Predictor_int x = Predictor_int y -> x = y) /\
  (forall x y : ModelContent.line_cap, ModelContent.line_cap_int x = ModelContent.line_cap_int y -> x = y) /\
  (forall x y : ModelContent.line_join, ModelContent.line_join_int x = ModelContent.line_join_int y -> x = y) /\
  (forall x y : OverprintMode, OverprintMode_int x = OverprintMode_int y -> x = y) /\
  (forall x y : ModelCmap.wmode, ModelCmap.wmode_int x = ModelCmap.wmode_int y -> x = y).
Proof.
  repeat split; intros x y;
  match goal with
  | |- _ -> _ -> ?f _ = ?f _ -> _ =>
      intros Hx Hy E; destruct x; try (exfalso; eapply Hx; reflexivity);
      destruct y; try (exfalso; eapply Hy; reflexivity); first [reflexivity | discriminate E]
  | |- _ => intro E; destruct x, y; first [reflexivity | discriminate E]
  end.
Qed.

(** Owners are distinct within an edition of the standard. *)
Theorem C43_owners_distinct : forall x y b, AttributeOwner_name x b = AttributeOwner_name y b -> x = y.
Proof. intros x y b E. destruct b, x, y; first [reflexivity | discriminate E]. Qed.

(** Concrete cases. *)
Example C43_case_name : reads (OPrim (PName (lit "GoToR"))) (is_ActionType ActionType_RemoteGoTo).
Proof. apply (proj1 C43_names ActionType_RemoteGoTo). Qed.
Example C43_case_custom : AnnotationIcon_ok (AnnotationIcon_Custom (lit "Star")) = true.
Proof. reflexivity. Qed.
Example C43_case_flags : flags_bits FontFlags_bit [FontFlags_Symbolic; FontFlags_Italic; FontFlags_Symbolic] = 68.
Proof. reflexivity. Qed.
