(** Proofs about the enum and flag arguments. Generated by gen/gen_enums.py. *)

From Coq Require Import ZArith List Bool Lia.
From Verif Require ModelContent ModelCmap.
From Verif Require Import Bytes ModelFloat ModelBuf ModelObject ModelTw ModelEnums SpecLex SpecObj SpecMeans SpecTyped SpecColor SpecTw SpecEnums
  ProofTyped ProofTw.
Import ListNotations.
Local Open Scope Z_scope.

Lemma good_named {E} (t : list (bytes * E)) n x : name_ok n = true -> by_name n t = Some x -> good (OPrim (PName n)) (is_named t x).
Proof. intros H K. split; [rewrite fine_name; exact H|]. intros v M. apply m_name in M. exists n. split; assumption. Qed.
Lemma good_str_of {E} (t : list (bytes * E)) n x : by_name n t = Some x -> good (OPrim (PStr n)) (is_str_of t x).
Proof. intros K. split; [reflexivity|]. intros v M. apply m_str in M. exists n. split; assumption. Qed.
Lemma good_numbered {E} (t : list (Z * E)) n x : in_i32 n = true -> by_number n t = Some x -> good (OPrim (PInt n)) (is_numbered t x).
Proof. intros H K. split; [rewrite fine_int; exact H|]. intros v M. apply m_int in M. exists n. split; assumption. Qed.

Lemma good_ActionType x : good (OPrim (PName (ActionType_name x))) (is_ActionType x).
Proof. destruct x; apply good_named; reflexivity. Qed.
Lemma good_AnnotationType x : good (OPrim (PName (AnnotationType_name x))) (is_AnnotationType x).
Proof. destruct x; apply good_named; reflexivity. Qed.
Lemma good_AnnotationIcon x : AnnotationIcon_ok x = true -> good (OPrim (PName (AnnotationIcon_name x))) (is_AnnotationIcon x).
Proof. destruct x; intro H; first [apply good_name; exact H|apply good_named; reflexivity]. Qed.
Lemma good_IconScale x : good (OPrim (PName (IconScale_name x))) (is_IconScale x).
Proof. destruct x; apply good_named; reflexivity. Qed.
Lemma good_IconScaleType x : good (OPrim (PName (IconScaleType_name x))) (is_IconScaleType x).
Proof. destruct x; apply good_named; reflexivity. Qed.
Lemma good_HighlightEffect x : good (OPrim (PName (HighlightEffect_name x))) (is_HighlightEffect x).
Proof. destruct x; apply good_named; reflexivity. Qed.
Lemma good_BorderType x : good (OPrim (PName (BorderType_name x))) (is_BorderType x).
Proof. destruct x; apply good_named; reflexivity. Qed.
Lemma good_Placement x : good (OPrim (PName (Placement_name x))) (is_Placement x).
Proof. destruct x; apply good_named; reflexivity. Qed.
Lemma good_WritingMode x : good (OPrim (PName (WritingMode_name x))) (is_WritingMode x).
Proof. destruct x; apply good_named; reflexivity. Qed.
Lemma good_TextAlign x : good (OPrim (PName (TextAlign_name x))) (is_TextAlign x).
Proof. destruct x; apply good_named; reflexivity. Qed.
Lemma good_BlockAlign x : good (OPrim (PName (BlockAlign_name x))) (is_BlockAlign x).
Proof. destruct x; apply good_named; reflexivity. Qed.
Lemma good_InlineAlign x : good (OPrim (PName (InlineAlign_name x))) (is_InlineAlign x).
Proof. destruct x; apply good_named; reflexivity. Qed.
Lemma good_LayoutTextPosition x : good (OPrim (PName (LayoutTextPosition_name x))) (is_LayoutTextPosition x).
Proof. destruct x; apply good_named; reflexivity. Qed.
Lemma good_TextDecorationType x : good (OPrim (PName (TextDecorationType_name x))) (is_TextDecorationType x).
Proof. destruct x; apply good_named; reflexivity. Qed.
Lemma good_RubyAlign x : good (OPrim (PName (RubyAlign_name x))) (is_RubyAlign x).
Proof. destruct x; apply good_named; reflexivity. Qed.
Lemma good_RubyPosition x : good (OPrim (PName (RubyPosition_name x))) (is_RubyPosition x).
Proof. destruct x; apply good_named; reflexivity. Qed.
Lemma good_ListNumbering x : good (OPrim (PName (ListNumbering_name x))) (is_ListNumbering x).
Proof. destruct x; apply good_named; reflexivity. Qed.
Lemma good_FieldRole x : good (OPrim (PName (FieldRole_name x))) (is_FieldRole x).
Proof. destruct x; apply good_named; reflexivity. Qed.
Lemma good_FieldState x : good (OPrim (PName (FieldState_name x))) (is_FieldState x).
Proof. destruct x; apply good_named; reflexivity. Qed.
Lemma good_TableHeaderScope x : good (OPrim (PName (TableHeaderScope_name x))) (is_TableHeaderScope x).
Proof. destruct x; apply good_named; reflexivity. Qed.
Lemma good_NoteType x : good (OPrim (PName (NoteType_name x))) (is_NoteType x).
Proof. destruct x; apply good_named; reflexivity. Qed.
Lemma good_OutputIntentSubtype x : OutputIntentSubtype_ok x = true -> good (OPrim (PName (OutputIntentSubtype_name x))) (is_OutputIntentSubtype x).
Proof. destruct x; intro H; first [apply good_name; exact H|apply good_named; reflexivity]. Qed.
Lemma good_AssociationKind x : good (OPrim (PName (AssociationKind_name x))) (is_AssociationKind x).
Proof. destruct x; apply good_named; reflexivity. Qed.
Lemma good_CidFontType x : good (OPrim (PName (CidFontType_name x))) (is_CidFontType x).
Proof. destruct x; apply good_named; reflexivity. Qed.
Lemma good_CjkClass x : good (OPrim (PName (CjkClass_name x))) (is_CjkClass x).
Proof. destruct x; apply good_named; reflexivity. Qed.
Lemma good_FontStretch x : good (OPrim (PName (FontStretch_name x))) (is_FontStretch x).
Proof. destruct x; apply good_named; reflexivity. Qed.
Lemma good_FieldType x : good (OPrim (PName (FieldType_name x))) (is_FieldType x).
Proof. destruct x; apply good_named; reflexivity. Qed.
Lemma good_CheckBoxState x : good (OPrim (PName (CheckBoxState_name x))) (is_CheckBoxState x).
Proof. destruct x; apply good_named; reflexivity. Qed.
Lemma good_SignatureLockAction x : good (OPrim (PName (SignatureLockAction_name x))) (is_SignatureLockAction x).
Proof. destruct x; apply good_named; reflexivity. Qed.
Lemma good_SignatureDigestMethod x : good (OPrim (PName (SignatureDigestMethod_name x))) (is_SignatureDigestMethod x).
Proof. destruct x; apply good_named; reflexivity. Qed.
Lemma good_LockingIntent x : good (OPrim (PName (LockingIntent_name x))) (is_LockingIntent x).
Proof. destruct x; apply good_named; reflexivity. Qed.
Lemma good_CertificateUrlType x : CertificateUrlType_ok x = true -> good (OPrim (PName (CertificateUrlType_name x))) (is_CertificateUrlType x).
Proof. destruct x; intro H; first [apply good_name; exact H|apply good_named; reflexivity]. Qed.
Lemma good_RenditionType x : good (OPrim (PName (RenditionType_name x))) (is_RenditionType x).
Proof. destruct x; apply good_named; reflexivity. Qed.
Lemma good_MediaClipType x : good (OPrim (PName (MediaClipType_name x))) (is_MediaClipType x).
Proof. destruct x; apply good_named; reflexivity. Qed.
Lemma good_PageLayout x : good (OPrim (PName (PageLayout_name x))) (is_PageLayout x).
Proof. destruct x; apply good_named; reflexivity. Qed.
Lemma good_PageMode x : good (OPrim (PName (PageMode_name x))) (is_PageMode x).
Proof. destruct x; apply good_named; reflexivity. Qed.
Lemma good_StructRole x : good (OPrim (PName (StructRole_name x))) (is_StructRole x).
Proof. destruct x; apply good_named; reflexivity. Qed.
Lemma good_PhoneticAlphabet x : PhoneticAlphabet_ok x = true -> good (OPrim (PName (PhoneticAlphabet_name x))) (is_PhoneticAlphabet x).
Proof. destruct x; intro H; first [apply good_name; exact H|apply good_named; reflexivity]. Qed.
Lemma good_Direction x : good (OPrim (PName (Direction_name x))) (is_Direction x).
Proof. destruct x; apply good_named; reflexivity. Qed.
Lemma good_NumberingStyle x : good (OPrim (PName (NumberingStyle_name x))) (is_NumberingStyle x).
Proof. destruct x; apply good_named; reflexivity. Qed.
Lemma good_TrappingStatus x : good (OPrim (PName (TrappingStatus_name x))) (is_TrappingStatus x).
Proof. destruct x; apply good_named; reflexivity. Qed.
Lemma good_TabOrder x : good (OPrim (PName (TabOrder_name x))) (is_TabOrder x).
Proof. destruct x; apply good_named; reflexivity. Qed.
Lemma good_TransitionStyle x : good (OPrim (PName (TransitionStyle_name x))) (is_TransitionStyle x).
Proof. destruct x; apply good_named; reflexivity. Qed.
Lemma good_ArtifactType x : good (OPrim (PName (ArtifactType_name x))) (is_ArtifactType x).
Proof. destruct x; apply good_named; reflexivity. Qed.
Lemma good_ArtifactSubtype x : ArtifactSubtype_ok x = true -> good (OPrim (PName (ArtifactSubtype_name x))) (is_ArtifactSubtype x).
Proof. destruct x; intro H; first [apply good_name; exact H|apply good_named; reflexivity]. Qed.
Lemma good_ArtifactAttachment x : good (OPrim (PName (ArtifactAttachment_name x))) (is_ArtifactAttachment x).
Proof. destruct x; apply good_named; reflexivity. Qed.
Lemma good_ProcSet x : good (OPrim (PName (ProcSet_name x))) (is_ProcSet x).
Proof. destruct x; apply good_named; reflexivity. Qed.
Lemma good_BlendMode x : good (OPrim (PName (BlendMode_name x))) (is_BlendMode x).
Proof. destruct x; apply good_named; reflexivity. Qed.
Lemma good_MaskType x : good (OPrim (PName (MaskType_name x))) (is_MaskType x).
Proof. destruct x; apply good_named; reflexivity. Qed.
Lemma good_RenderingIntent x : good (OPrim (PName (ModelContent.rendering_intent_name x))) (is_RenderingIntent x).
Proof. destruct x; apply good_named; reflexivity. Qed.
Lemma good_TempFileType x : good (OPrim (PStr (TempFileType_str x))) (is_TempFileType x).
Proof. destruct x; apply good_str_of; reflexivity. Qed.
Lemma good_RenditionOperation x : good (OPrim (PInt (RenditionOperation_int x))) (is_RenditionOperation x).
Proof. destruct x; apply good_numbered; reflexivity. Qed.
Lemma good_TextPosition x : good (OPrim (PInt (TextPosition_int x))) (is_TextPosition x).
Proof. destruct x; apply good_numbered; reflexivity. Qed.
Lemma good_PaintType x : good (OPrim (PInt (PaintType_int x))) (is_PaintType x).
Proof. destruct x; apply good_numbered; reflexivity. Qed.
Lemma good_TilingType x : good (OPrim (PInt (TilingType_int x))) (is_TilingType x).
Proof. destruct x; apply good_numbered; reflexivity. Qed.
Lemma good_FunctionShadingType x : good (OPrim (PInt (FunctionShadingType_int x))) (is_FunctionShadingType x).
Proof. destruct x; apply good_numbered; reflexivity. Qed.
Lemma good_StreamShadingType x : good (OPrim (PInt (StreamShadingType_int x))) (is_StreamShadingType x).
Proof. destruct x; apply good_numbered; reflexivity. Qed.
Lemma good_Quadding x : good (OPrim (PInt (Quadding_int x))) (is_Quadding x).
Proof. destruct x; apply good_numbered; reflexivity. Qed.
Lemma good_SeedValueParserVersion x : good (OPrim (PInt (SeedValueParserVersion_int x))) (is_SeedValueParserVersion x).
Proof. destruct x; apply good_numbered; reflexivity. Qed.
Lemma good_AccessPermissions x : good (OPrim (PInt (AccessPermissions_int x))) (is_AccessPermissions x).
Proof. destruct x; apply good_numbered; reflexivity. Qed.
Lemma good_InterpolationOrder x : good (OPrim (PInt (InterpolationOrder_int x))) (is_InterpolationOrder x).
Proof. destruct x; apply good_numbered; reflexivity. Qed.
Lemma good_SMaskInData x : good (OPrim (PInt (SMaskInData_int x))) (is_SMaskInData x).
Proof. destruct x; apply good_numbered; reflexivity. Qed.
Lemma good_Predictor x : good (OPrim (PInt (Predictor_int x))) (is_Predictor x).
Proof. destruct x; apply good_numbered; reflexivity. Qed.
Lemma good_LineCapStyle x : good (OPrim (PInt (ModelContent.line_cap_int x))) (is_LineCapStyle x).
Proof. destruct x; apply good_numbered; reflexivity. Qed.
Lemma good_LineJoinStyle x : good (OPrim (PInt (ModelContent.line_join_int x))) (is_LineJoinStyle x).
Proof. destruct x; apply good_numbered; reflexivity. Qed.
Lemma good_OverprintMode x : good (OPrim (PInt (OverprintMode_int x))) (is_OverprintMode x).
Proof. destruct x; apply good_numbered; reflexivity. Qed.
Lemma good_WMode x : good (OPrim (PInt (ModelCmap.wmode_int x))) (is_WMode x).
Proof. destruct x; apply good_numbered; reflexivity. Qed.
Lemma good_AttributeOwner x b : good (OPrim (PName (AttributeOwner_name x b))) (is_AttributeOwner x b).
Proof. destruct x, b; apply good_named; reflexivity. Qed.
Lemma good_FormActionFlags l : good (OPrim (PInt (flags_bits FormActionFlags_bit l))) (is_flags FormActionFlags_pos l).
Proof. apply good_flags. intros []; split; first [cbn; lia|reflexivity]. Qed.
Lemma good_AnnotationFlags l : good (OPrim (PInt (flags_bits AnnotationFlags_bit l))) (is_flags AnnotationFlags_pos l).
Proof. apply good_flags. intros []; split; first [cbn; lia|reflexivity]. Qed.
Lemma good_FontFlags l : good (OPrim (PInt (flags_bits FontFlags_bit l))) (is_flags FontFlags_pos l).
Proof. apply good_flags. intros []; split; first [cbn; lia|reflexivity]. Qed.
Lemma good_SigFlags l : good (OPrim (PInt (flags_bits SigFlags_bit l))) (is_flags SigFlags_pos l).
Proof. apply good_flags. intros []; split; first [cbn; lia|reflexivity]. Qed.
Lemma good_SignatureSeedValueFlags l : good (OPrim (PInt (flags_bits SignatureSeedValueFlags_bit l))) (is_flags SignatureSeedValueFlags_pos l).
Proof. apply good_flags. intros []; split; first [cbn; lia|reflexivity]. Qed.
Lemma good_CertificateSeedValueFlags l : good (OPrim (PInt (flags_bits CertificateSeedValueFlags_bit l))) (is_flags CertificateSeedValueFlags_pos l).
Proof. apply good_flags. intros []; split; first [cbn; lia|reflexivity]. Qed.
Lemma good_FieldFlags l : good (OPrim (PInt (flags_bits FieldFlags_bit l))) (is_flags FieldFlags_pos l).
Proof. apply good_flags. intros []; split; first [cbn; lia|reflexivity]. Qed.
Lemma good_OutlineItemFlags l : good (OPrim (PInt (flags_bits OutlineItemFlags_bit l))) (is_flags OutlineItemFlags_pos l).
Proof. apply good_flags. intros []; split; first [cbn; lia|reflexivity]. Qed.

#[export] Hint Resolve good_ActionType good_AnnotationType good_AnnotationIcon good_IconScale good_IconScaleType good_HighlightEffect good_BorderType good_Placement good_WritingMode good_TextAlign good_BlockAlign good_InlineAlign good_LayoutTextPosition good_TextDecorationType good_RubyAlign good_RubyPosition good_ListNumbering good_FieldRole good_FieldState good_TableHeaderScope good_NoteType good_OutputIntentSubtype good_AssociationKind good_CidFontType good_CjkClass good_FontStretch good_FieldType good_CheckBoxState good_SignatureLockAction good_SignatureDigestMethod good_LockingIntent good_CertificateUrlType good_RenditionType good_MediaClipType good_PageLayout good_PageMode good_StructRole good_PhoneticAlphabet good_Direction good_NumberingStyle good_TrappingStatus good_TabOrder good_TransitionStyle good_ArtifactType good_ArtifactSubtype good_ArtifactAttachment good_ProcSet good_BlendMode good_MaskType good_RenderingIntent good_TempFileType good_RenditionOperation good_TextPosition good_PaintType good_TilingType good_FunctionShadingType good_StreamShadingType good_Quadding good_SeedValueParserVersion good_AccessPermissions good_InterpolationOrder good_SMaskInData good_Predictor good_LineCapStyle good_LineJoinStyle good_OverprintMode good_WMode good_AttributeOwner good_FormActionFlags good_AnnotationFlags good_FontFlags good_SigFlags good_SignatureSeedValueFlags good_CertificateSeedValueFlags good_FieldFlags good_OutlineItemFlags : tw.
