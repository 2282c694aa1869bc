(** Specification: renaming object numbers in calls.  [X_ren g calls] are the same calls with the same arguments, except that every
    [Ref] among them is replaced by its image under [g].  Generated by gen/gen_rename.py from the table of the writers' arguments. *)

From Coq Require Import ZArith List Bool.
From Verif Require ModelContent ModelCmap.
From Verif Require Import Bytes ModelFloat ModelBuf ModelObject ModelChunk ModelColor ModelSmall ModelPdf ModelTw ModelEnums ModelRoles ModelTwArgs
  ModelTwFiles ModelTwGraphics ModelTwAnnot ModelTwForms ModelTwAttr ModelTwXObj ModelTwFonts ModelTwDoc ModelFontDesc ModelDoc
  SpecRenum SpecChunk.
Import ListNotations.
Local Open Scope Z_scope.

(** ** Arguments *)

Definition ren_dict {A B} (f : A -> B) (l : list (bytes * A)) : list (bytes * B) := map (fun e => (fst e, f (snd e))) l.
Definition ren_prim (g : Z -> Z) (p : prim) : prim := match p with PRef r => PRef (g r) | p => p end.
Definition ren_raw {C} (g : Z -> Z) (f : C -> C) (c : or_raw C) : or_raw C :=
  match c with Typed c => Typed (f c) | Raw k o => Raw k (map_refs g o) end.
Definition ren_item {C} (g : Z -> Z) (f : C -> C) (c : or_item C) : or_item C :=
  match c with TypedItem c => TypedItem (f c) | RawItem o => RawItem (map_refs g o) end.
Definition ren_stream {S C} (g : Z -> Z) (fs : S -> S) (f : C -> C) (c : or_stream S C) : or_stream S C :=
  match c with STyped c => STyped (f c) | SStream s => SStream (fs s) | SRaw k o => SRaw k (map_refs g o) end.
Definition ren_name_tree (g : Z -> Z) (c : name_tree_call) : name_tree_call :=
  match c with
  | NtKids l => NtKids (map g l)
  | NtNames es => NtNames (ren_dict (ren_prim g) es)
  | NtLimits a b => NtLimits a b
  end.
Definition ren_number_tree (g : Z -> Z) (c : number_tree_call) : number_tree_call :=
  match c with
  | MtKids l => MtKids (map g l)
  | MtNums es => MtNums (map (fun e => (fst e, ren_prim g (snd e))) es)
  | MtLimits a b => MtLimits a b
  end.
Definition ren_AppearanceEntry (g : Z -> Z) (c : AppearanceEntry_call) : AppearanceEntry_call :=
  match c with
  | AppearanceEntry_stream id => AppearanceEntry_stream (g id)
  | AppearanceEntry_streams l => AppearanceEntry_streams (ren_dict g l)
  end.

(** ** Color spaces *)

Definition ren_stitch (g : Z -> Z) (c : stitch_call) : stitch_call :=
  match c with StFunctions l => StFunctions (map g l) | c => c end.
Fixpoint ren_cs (g : Z -> Z) (c : cs) : cs :=
  match c with
  | CsIccBased r => CsIccBased (g r)
  | CsSeparation n l => CsSeparation n (map (ren_part g) l)
  | CsDeviceN ns l => CsDeviceN ns (map (ren_part g) l)
  | c => c
  end
with ren_part (g : Z -> Z) (p : part) : part :=
  match p with
  | AlternateSpace c => AlternateSpace (ren_cs g c)
  | AlternateRef r => AlternateRef (g r)
  | TintStitching l => TintStitching (map (ren_stitch g) l)
  | TintRef r => TintRef (g r)
  | Attrs l => Attrs (map (ren_attr g) l)
  | p => p
  end
with ren_attr (g : Z -> Z) (a : attr_call) : attr_call :=
  match a with
  | AtColorants l => AtColorants (ren_dict (map_entries g) l)
  | AtProcess l => AtProcess (map (ren_proc g) l)
  | a => a
  end
with ren_proc (g : Z -> Z) (p : proc_call) : proc_call :=
  match p with PrColorSpaceArray c => PrColorSpaceArray (ren_cs g c) | p => p end.
Definition ren_icc (g : Z -> Z) (c : icc_call) : icc_call :=
  match c with IccAlternate c => IccAlternate (ren_cs g c) | IccMetadata r => IccMetadata (g r) | c => c end.

(** ** Font descriptors *)

Fixpoint ren_fd (g : Z -> Z) (c : fd_call) : fd_call :=
  match c with
  | Fd_font_file id => Fd_font_file (g id)
  | Fd_font_file2 id => Fd_font_file2 (g id)
  | Fd_font_file3 id => Fd_font_file3 (g id)
  | Fd_cid_set id => Fd_cid_set (g id)
  | Fd_override calls => Fd_override (map (ren_ov g) calls)
  | Fd_raw key o => Fd_raw key (map_refs g o)
  | c => c
  end
with ren_ov (g : Z -> Z) (c : ov_call) : ov_call :=
  match c with
  | Ov_custom_class class calls => Ov_custom_class class (map (ren_fd g) calls)
  | Ov_custom_class_ref class id => Ov_custom_class_ref class (g id)
  | Ov_cjk_class class calls => Ov_cjk_class class (map (ren_fd g) calls)
  | Ov_cjk_class_ref class id => Ov_cjk_class_ref class (g id)
  | Ov_raw key o => Ov_raw key (map_refs g o)
  end.

(** ** The typed writers *)

Definition DecodeParms_ren_call (g : Z -> Z) (c : DecodeParms_call) : DecodeParms_call :=
  match c with
  | DecodeParms_jbig2_globals globals => DecodeParms_jbig2_globals (g globals)
  | c => c
  end.
Definition DecodeParms_ren (g : Z -> Z) (cs : DecodeParms_calls) : DecodeParms_calls := map (ren_raw g (DecodeParms_ren_call g)) cs.
Definition Stream_ren_call (g : Z -> Z) (c : Stream_call) : Stream_call :=
  match c with
  | Stream_decode_parms calls => Stream_decode_parms (DecodeParms_ren g calls)
  | c => c
  end.
Definition Stream_ren (g : Z -> Z) (cs : Stream_calls) : Stream_calls := map (ren_raw g (Stream_ren_call g)) cs.
Definition FileSpec_ren_call (g : Z -> Z) (c : FileSpec_call) : FileSpec_call :=
  match c with
  | FileSpec_embedded_file id => FileSpec_embedded_file (g id)
  | FileSpec_embedded_file_with_unicode id => FileSpec_embedded_file_with_unicode (g id)
  | c => c
  end.
Definition FileSpec_ren (g : Z -> Z) (cs : FileSpec_calls) : FileSpec_calls := map (ren_raw g (FileSpec_ren_call g)) cs.
Definition EmbeddingParams_ren_call (g : Z -> Z) (c : EmbeddingParams_call) : EmbeddingParams_call := c.
Definition EmbeddingParams_ren (g : Z -> Z) (cs : EmbeddingParams_calls) : EmbeddingParams_calls := map (ren_raw g (EmbeddingParams_ren_call g)) cs.
Definition EmbeddedFile_ren_call (g : Z -> Z) (c : EmbeddedFile_call) : EmbeddedFile_call :=
  match c with
  | EmbeddedFile_params calls => EmbeddedFile_params (EmbeddingParams_ren g calls)
  | c => c
  end.
Definition EmbeddedFile_ren (g : Z -> Z) (cs : EmbeddedFile_calls) : EmbeddedFile_calls := map (ren_stream g (Stream_ren_call g) (EmbeddedFile_ren_call g)) cs.
Definition Artifact_ren_call (g : Z -> Z) (c : Artifact_call) : Artifact_call := c.
Definition Artifact_ren (g : Z -> Z) (cs : Artifact_calls) : Artifact_calls := map (ren_raw g (Artifact_ren_call g)) cs.
Definition PropertyList_ren_call (g : Z -> Z) (c : PropertyList_call) : PropertyList_call :=
  match c with
  | PropertyList_artifact calls => PropertyList_artifact (Artifact_ren g calls)
  | c => c
  end.
Definition PropertyList_ren (g : Z -> Z) (cs : PropertyList_calls) : PropertyList_calls := map (ren_raw g (PropertyList_ren_call g)) cs.
Definition Resources_ren_call (g : Z -> Z) (c : Resources_call) : Resources_call :=
  match c with
  | Resources_x_objects entries => Resources_x_objects (map_entries g entries)
  | Resources_fonts entries => Resources_fonts (map_entries g entries)
  | Resources_color_spaces entries => Resources_color_spaces (map_entries g entries)
  | Resources_patterns entries => Resources_patterns (map_entries g entries)
  | Resources_shadings entries => Resources_shadings (map_entries g entries)
  | Resources_ext_g_states entries => Resources_ext_g_states (map_entries g entries)
  | Resources_properties items => Resources_properties (ren_dict (PropertyList_ren g) items)
  | c => c
  end.
Definition Resources_ren (g : Z -> Z) (cs : Resources_calls) : Resources_calls := map (ren_raw g (Resources_ren_call g)) cs.
Definition SoftMask_ren_call (g : Z -> Z) (c : SoftMask_call) : SoftMask_call :=
  match c with
  | SoftMask_group group => SoftMask_group (g group)
  | SoftMask_transfer_function function => SoftMask_transfer_function (g function)
  | c => c
  end.
Definition SoftMask_ren (g : Z -> Z) (cs : SoftMask_calls) : SoftMask_calls := map (ren_raw g (SoftMask_ren_call g)) cs.
Definition ExtGraphicsState_ren_call (g : Z -> Z) (c : ExtGraphicsState_call) : ExtGraphicsState_call :=
  match c with
  | ExtGraphicsState_black_generation func => ExtGraphicsState_black_generation (g func)
  | ExtGraphicsState_undercolor_removal func => ExtGraphicsState_undercolor_removal (g func)
  | ExtGraphicsState_transfer func => ExtGraphicsState_transfer (g func)
  | ExtGraphicsState_halftone ht => ExtGraphicsState_halftone (g ht)
  | ExtGraphicsState_soft_mask calls => ExtGraphicsState_soft_mask (SoftMask_ren g calls)
  | c => c
  end.
Definition ExtGraphicsState_ren (g : Z -> Z) (cs : ExtGraphicsState_calls) : ExtGraphicsState_calls := map (ren_raw g (ExtGraphicsState_ren_call g)) cs.
Definition TilingPattern_ren_call (g : Z -> Z) (c : TilingPattern_call) : TilingPattern_call :=
  match c with
  | TilingPattern_resources calls => TilingPattern_resources (Resources_ren g calls)
  | c => c
  end.
Definition TilingPattern_ren (g : Z -> Z) (cs : TilingPattern_calls) : TilingPattern_calls := map (ren_stream g (Stream_ren_call g) (TilingPattern_ren_call g)) cs.
Definition FunctionShading_ren_call (g : Z -> Z) (c : FunctionShading_call) : FunctionShading_call :=
  match c with
  | FunctionShading_color_space x => FunctionShading_color_space (ren_cs g x)
  | FunctionShading_function function => FunctionShading_function (g function)
  | c => c
  end.
Definition FunctionShading_ren (g : Z -> Z) (cs : FunctionShading_calls) : FunctionShading_calls := map (ren_raw g (FunctionShading_ren_call g)) cs.
Definition ShadingPattern_ren_call (g : Z -> Z) (c : ShadingPattern_call) : ShadingPattern_call :=
  match c with
  | ShadingPattern_function_shading calls => ShadingPattern_function_shading (FunctionShading_ren g calls)
  | ShadingPattern_shading_ref id => ShadingPattern_shading_ref (g id)
  | ShadingPattern_ext_graphics calls => ShadingPattern_ext_graphics (ExtGraphicsState_ren g calls)
  | c => c
  end.
Definition ShadingPattern_ren (g : Z -> Z) (cs : ShadingPattern_calls) : ShadingPattern_calls := map (ren_raw g (ShadingPattern_ren_call g)) cs.
Definition StreamShading_ren_call (g : Z -> Z) (c : StreamShading_call) : StreamShading_call :=
  match c with
  | StreamShading_color_space x => StreamShading_color_space (ren_cs g x)
  | StreamShading_function function => StreamShading_function (g function)
  | c => c
  end.
Definition StreamShading_ren (g : Z -> Z) (cs : StreamShading_calls) : StreamShading_calls := map (ren_stream g (Stream_ren_call g) (StreamShading_ren_call g)) cs.
Definition SeparationInfo_ren_call (g : Z -> Z) (c : SeparationInfo_call) : SeparationInfo_call :=
  match c with
  | SeparationInfo_pages pages => SeparationInfo_pages (map g pages)
  | SeparationInfo_color_space x => SeparationInfo_color_space (ren_cs g x)
  | c => c
  end.
Definition SeparationInfo_ren (g : Z -> Z) (cs : SeparationInfo_calls) : SeparationInfo_calls := map (SeparationInfo_ren_call g) cs.
Definition OutputIntent_ren_call (g : Z -> Z) (c : OutputIntent_call) : OutputIntent_call :=
  match c with
  | OutputIntent_dest_output_profile profile => OutputIntent_dest_output_profile (g profile)
  | c => c
  end.
Definition OutputIntent_ren (g : Z -> Z) (cs : OutputIntent_calls) : OutputIntent_calls := map (OutputIntent_ren_call g) cs.
Definition Group_ren_call (g : Z -> Z) (c : Group_call) : Group_call :=
  match c with
  | Group_color_space x => Group_color_space (ren_cs g x)
  | c => c
  end.
Definition Group_ren (g : Z -> Z) (cs : Group_calls) : Group_calls := map (ren_raw g (Group_ren_call g)) cs.
Definition Destination_ren_call (g : Z -> Z) (c : Destination_call) : Destination_call :=
  match c with
  | Destination_page page => Destination_page (g page)
  | c => c
  end.
Definition Destination_ren (g : Z -> Z) (cs : Destination_calls) : Destination_calls := map (ren_item g (Destination_ren_call g)) cs.
Definition Fields_ren_call (g : Z -> Z) (c : Fields_call) : Fields_call :=
  match c with
  | Fields_id id => Fields_id (g id)
  | Fields_ids ids => Fields_ids (map g ids)
  | c => c
  end.
Definition Fields_ren (g : Z -> Z) (cs : Fields_calls) : Fields_calls := map (ren_item g (Fields_ren_call g)) cs.
Definition MediaPermissions_ren_call (g : Z -> Z) (c : MediaPermissions_call) : MediaPermissions_call := c.
Definition MediaPermissions_ren (g : Z -> Z) (cs : MediaPermissions_calls) : MediaPermissions_calls := map (ren_raw g (MediaPermissions_ren_call g)) cs.
Definition MediaPlayParams_ren_call (g : Z -> Z) (c : MediaPlayParams_call) : MediaPlayParams_call := c.
Definition MediaPlayParams_ren (g : Z -> Z) (cs : MediaPlayParams_calls) : MediaPlayParams_calls := map (ren_raw g (MediaPlayParams_ren_call g)) cs.
Definition MediaClip_ren_call (g : Z -> Z) (c : MediaClip_call) : MediaClip_call :=
  match c with
  | MediaClip_data calls => MediaClip_data (FileSpec_ren g calls)
  | MediaClip_permissions calls => MediaClip_permissions (MediaPermissions_ren g calls)
  | c => c
  end.
Definition MediaClip_ren (g : Z -> Z) (cs : MediaClip_calls) : MediaClip_calls := map (ren_raw g (MediaClip_ren_call g)) cs.
Definition Rendition_ren_call (g : Z -> Z) (c : Rendition_call) : Rendition_call :=
  match c with
  | Rendition_media_clip calls => Rendition_media_clip (MediaClip_ren g calls)
  | Rendition_media_play_params calls => Rendition_media_play_params (MediaPlayParams_ren g calls)
  | c => c
  end.
Definition Rendition_ren (g : Z -> Z) (cs : Rendition_calls) : Rendition_calls := map (ren_raw g (Rendition_ren_call g)) cs.
Definition Action_ren_call (g : Z -> Z) (c : Action_call) : Action_call :=
  match c with
  | Action_destination calls => Action_destination (Destination_ren g calls)
  | Action_file_spec calls => Action_file_spec (FileSpec_ren g calls)
  | Action_js_stream script => Action_js_stream (g script)
  | Action_fields calls => Action_fields (Fields_ren g calls)
  | Action_annotation id => Action_annotation (g id)
  | Action_rendition calls => Action_rendition (Rendition_ren g calls)
  | c => c
  end.
Definition Action_ren (g : Z -> Z) (cs : Action_calls) : Action_calls := map (ren_raw g (Action_ren_call g)) cs.
Definition AdditionalActions_ren_call (g : Z -> Z) (c : AdditionalActions_call) : AdditionalActions_call :=
  match c with
  | AdditionalActions_annot_curser_enter calls => AdditionalActions_annot_curser_enter (Action_ren g calls)
  | AdditionalActions_annot_cursor_exit calls => AdditionalActions_annot_cursor_exit (Action_ren g calls)
  | AdditionalActions_annot_mouse_press calls => AdditionalActions_annot_mouse_press (Action_ren g calls)
  | AdditionalActions_annot_mouse_release calls => AdditionalActions_annot_mouse_release (Action_ren g calls)
  | AdditionalActions_annot_page_open calls => AdditionalActions_annot_page_open (Action_ren g calls)
  | AdditionalActions_annot_page_close calls => AdditionalActions_annot_page_close (Action_ren g calls)
  | AdditionalActions_annot_page_visible calls => AdditionalActions_annot_page_visible (Action_ren g calls)
  | AdditionalActions_annot_page_invisible calls => AdditionalActions_annot_page_invisible (Action_ren g calls)
  | AdditionalActions_widget_focus calls => AdditionalActions_widget_focus (Action_ren g calls)
  | AdditionalActions_widget_focus_loss calls => AdditionalActions_widget_focus_loss (Action_ren g calls)
  | AdditionalActions_page_open calls => AdditionalActions_page_open (Action_ren g calls)
  | AdditionalActions_page_close calls => AdditionalActions_page_close (Action_ren g calls)
  | AdditionalActions_form_calculate_partial calls => AdditionalActions_form_calculate_partial (Action_ren g calls)
  | AdditionalActions_form_format calls => AdditionalActions_form_format (Action_ren g calls)
  | AdditionalActions_form_validate calls => AdditionalActions_form_validate (Action_ren g calls)
  | AdditionalActions_form_calculate calls => AdditionalActions_form_calculate (Action_ren g calls)
  | AdditionalActions_cat_before_close calls => AdditionalActions_cat_before_close (Action_ren g calls)
  | AdditionalActions_cat_before_save calls => AdditionalActions_cat_before_save (Action_ren g calls)
  | AdditionalActions_cat_after_save calls => AdditionalActions_cat_after_save (Action_ren g calls)
  | AdditionalActions_cat_before_print calls => AdditionalActions_cat_before_print (Action_ren g calls)
  | AdditionalActions_cat_after_print calls => AdditionalActions_cat_after_print (Action_ren g calls)
  end.
Definition AdditionalActions_ren (g : Z -> Z) (cs : AdditionalActions_calls) : AdditionalActions_calls := map (ren_raw g (AdditionalActions_ren_call g)) cs.
Definition Appearance_ren_call (g : Z -> Z) (c : Appearance_call) : Appearance_call :=
  match c with
  | Appearance_normal x => Appearance_normal (ren_AppearanceEntry g x)
  | Appearance_rollover x => Appearance_rollover (ren_AppearanceEntry g x)
  | Appearance_alternate x => Appearance_alternate (ren_AppearanceEntry g x)
  end.
Definition Appearance_ren (g : Z -> Z) (cs : Appearance_calls) : Appearance_calls := map (ren_raw g (Appearance_ren_call g)) cs.
Definition IconFit_ren_call (g : Z -> Z) (c : IconFit_call) : IconFit_call := c.
Definition IconFit_ren (g : Z -> Z) (cs : IconFit_calls) : IconFit_calls := map (ren_raw g (IconFit_ren_call g)) cs.
Definition AppearanceCharacteristics_ren_call (g : Z -> Z) (c : AppearanceCharacteristics_call) : AppearanceCharacteristics_call :=
  match c with
  | AppearanceCharacteristics_normal_icon id => AppearanceCharacteristics_normal_icon (g id)
  | AppearanceCharacteristics_rollover_icon id => AppearanceCharacteristics_rollover_icon (g id)
  | AppearanceCharacteristics_alternate_icon id => AppearanceCharacteristics_alternate_icon (g id)
  | AppearanceCharacteristics_icon_fit calls => AppearanceCharacteristics_icon_fit (IconFit_ren g calls)
  | c => c
  end.
Definition AppearanceCharacteristics_ren (g : Z -> Z) (cs : AppearanceCharacteristics_calls) : AppearanceCharacteristics_calls := map (ren_raw g (AppearanceCharacteristics_ren_call g)) cs.
Definition BorderStyle_ren_call (g : Z -> Z) (c : BorderStyle_call) : BorderStyle_call := c.
Definition BorderStyle_ren (g : Z -> Z) (cs : BorderStyle_calls) : BorderStyle_calls := map (ren_raw g (BorderStyle_ren_call g)) cs.
Definition Annotation_ren_call (g : Z -> Z) (c : Annotation_call) : Annotation_call :=
  match c with
  | Annotation_page id => Annotation_page (g id)
  | Annotation_appearance calls => Annotation_appearance (Appearance_ren g calls)
  | Annotation_border_style calls => Annotation_border_style (BorderStyle_ren g calls)
  | Annotation_action calls => Annotation_action (Action_ren g calls)
  | Annotation_additional_actions calls => Annotation_additional_actions (AdditionalActions_ren g calls)
  | Annotation_file_spec calls => Annotation_file_spec (FileSpec_ren g calls)
  | Annotation_appearance_characteristics calls => Annotation_appearance_characteristics (AppearanceCharacteristics_ren g calls)
  | Annotation_parent id => Annotation_parent (g id)
  | Annotation_associated_files items => Annotation_associated_files (map (FileSpec_ren g) items)
  | c => c
  end.
Definition Annotation_ren (g : Z -> Z) (cs : Annotation_calls) : Annotation_calls := map (ren_raw g (Annotation_ren_call g)) cs.
Definition ChoiceOptions_ren_call (g : Z -> Z) (c : ChoiceOptions_call) : ChoiceOptions_call := c.
Definition ChoiceOptions_ren (g : Z -> Z) (cs : ChoiceOptions_calls) : ChoiceOptions_calls := map (ren_item g (ChoiceOptions_ren_call g)) cs.
Definition SignatureFieldLock_ren_call (g : Z -> Z) (c : SignatureFieldLock_call) : SignatureFieldLock_call := c.
Definition SignatureFieldLock_ren (g : Z -> Z) (cs : SignatureFieldLock_calls) : SignatureFieldLock_calls := map (ren_raw g (SignatureFieldLock_ren_call g)) cs.
Definition SignatureModificationDetectionPrevention_ren_call (g : Z -> Z) (c : SignatureModificationDetectionPrevention_call) : SignatureModificationDetectionPrevention_call := c.
Definition SignatureModificationDetectionPrevention_ren (g : Z -> Z) (cs : SignatureModificationDetectionPrevention_calls) : SignatureModificationDetectionPrevention_calls := map (ren_raw g (SignatureModificationDetectionPrevention_ren_call g)) cs.
Definition SignatureTimeStamp_ren_call (g : Z -> Z) (c : SignatureTimeStamp_call) : SignatureTimeStamp_call := c.
Definition SignatureTimeStamp_ren (g : Z -> Z) (cs : SignatureTimeStamp_calls) : SignatureTimeStamp_calls := map (ren_raw g (SignatureTimeStamp_ren_call g)) cs.
Definition CertificateSeedValue_ren_call (g : Z -> Z) (c : CertificateSeedValue_call) : CertificateSeedValue_call :=
  match c with
  | CertificateSeedValue_subject_dn items => CertificateSeedValue_subject_dn (map (map_entries g) items)
  | c => c
  end.
Definition CertificateSeedValue_ren (g : Z -> Z) (cs : CertificateSeedValue_calls) : CertificateSeedValue_calls := map (ren_raw g (CertificateSeedValue_ren_call g)) cs.
Definition SignatureSeedValue_ren_call (g : Z -> Z) (c : SignatureSeedValue_call) : SignatureSeedValue_call :=
  match c with
  | SignatureSeedValue_certificate calls => SignatureSeedValue_certificate (CertificateSeedValue_ren g calls)
  | SignatureSeedValue_modification_detection_prevention calls => SignatureSeedValue_modification_detection_prevention (SignatureModificationDetectionPrevention_ren g calls)
  | SignatureSeedValue_timestamp calls => SignatureSeedValue_timestamp (SignatureTimeStamp_ren g calls)
  | c => c
  end.
Definition SignatureSeedValue_ren (g : Z -> Z) (cs : SignatureSeedValue_calls) : SignatureSeedValue_calls := map (ren_raw g (SignatureSeedValue_ren_call g)) cs.
Definition Field_ren_call (g : Z -> Z) (c : Field_call) : Field_call :=
  match c with
  | Field_parent id => Field_parent (g id)
  | Field_children children => Field_children (map g children)
  | Field_additional_actions calls => Field_additional_actions (AdditionalActions_ren g calls)
  | Field_into_annotation calls => Field_into_annotation (Annotation_ren g calls)
  | Field_choice_options calls => Field_choice_options (ChoiceOptions_ren g calls)
  | Field_signature_field_lock field_lock => Field_signature_field_lock (g field_lock)
  | Field_signature_seed_value seed_value => Field_signature_seed_value (g seed_value)
  | c => c
  end.
Definition Field_ren (g : Z -> Z) (cs : Field_calls) : Field_calls := map (ren_raw g (Field_ren_call g)) cs.
Definition Form_ren_call (g : Z -> Z) (c : Form_call) : Form_call :=
  match c with
  | Form_fields fields => Form_fields (map g fields)
  | Form_calculation_order actions => Form_calculation_order (map g actions)
  | Form_default_resources calls => Form_default_resources (Resources_ren g calls)
  | c => c
  end.
Definition Form_ren (g : Z -> Z) (cs : Form_calls) : Form_calls := map (ren_raw g (Form_ren_call g)) cs.
Definition UserProperty_ren_call (g : Z -> Z) (c : UserProperty_call) : UserProperty_call :=
  match c with
  | UserProperty_value o => UserProperty_value (map_refs g o)
  | c => c
  end.
Definition UserProperty_ren (g : Z -> Z) (cs : UserProperty_calls) : UserProperty_calls := map (ren_raw g (UserProperty_ren_call g)) cs.
Definition LayoutAttributes_ren_call (g : Z -> Z) (c : LayoutAttributes_call) : LayoutAttributes_call := c.
Definition LayoutAttributes_ren (g : Z -> Z) (cs : LayoutAttributes_calls) : LayoutAttributes_calls := map (ren_raw g (LayoutAttributes_ren_call g)) cs.
Definition ListAttributes_ren_call (g : Z -> Z) (c : ListAttributes_call) : ListAttributes_call := c.
Definition ListAttributes_ren (g : Z -> Z) (cs : ListAttributes_calls) : ListAttributes_calls := map (ren_raw g (ListAttributes_ren_call g)) cs.
Definition FieldAttributes_ren_call (g : Z -> Z) (c : FieldAttributes_call) : FieldAttributes_call := c.
Definition FieldAttributes_ren (g : Z -> Z) (cs : FieldAttributes_calls) : FieldAttributes_calls := map (ren_raw g (FieldAttributes_ren_call g)) cs.
Definition TableAttributes_ren_call (g : Z -> Z) (c : TableAttributes_call) : TableAttributes_call := c.
Definition TableAttributes_ren (g : Z -> Z) (cs : TableAttributes_calls) : TableAttributes_calls := map (ren_raw g (TableAttributes_ren_call g)) cs.
Definition ArtifactAttributes_ren_call (g : Z -> Z) (c : ArtifactAttributes_call) : ArtifactAttributes_call := c.
Definition ArtifactAttributes_ren (g : Z -> Z) (cs : ArtifactAttributes_calls) : ArtifactAttributes_calls := map (ren_raw g (ArtifactAttributes_ren_call g)) cs.
Definition FENoteAttributes_ren_call (g : Z -> Z) (c : FENoteAttributes_call) : FENoteAttributes_call := c.
Definition FENoteAttributes_ren (g : Z -> Z) (cs : FENoteAttributes_calls) : FENoteAttributes_calls := map (ren_raw g (FENoteAttributes_ren_call g)) cs.
Definition Attributes_ren_call (g : Z -> Z) (c : Attributes_call) : Attributes_call :=
  match c with
  | Attributes_user properties => Attributes_user (map (UserProperty_ren g) properties)
  | Attributes_layout calls => Attributes_layout (LayoutAttributes_ren g calls)
  | Attributes_list calls => Attributes_list (ListAttributes_ren g calls)
  | Attributes_field calls => Attributes_field (FieldAttributes_ren g calls)
  | Attributes_table calls => Attributes_table (TableAttributes_ren g calls)
  | Attributes_artifact calls => Attributes_artifact (ArtifactAttributes_ren g calls)
  | Attributes_note calls => Attributes_note (FENoteAttributes_ren g calls)
  | Attributes_namespace ns entries => Attributes_namespace (g ns) (map_entries g entries)
  | c => c
  end.
Definition Attributes_ren (g : Z -> Z) (cs : Attributes_calls) : Attributes_calls := map (ren_raw g (Attributes_ren_call g)) cs.
Definition MarkedRef_ren_call (g : Z -> Z) (c : MarkedRef_call) : MarkedRef_call :=
  match c with
  | MarkedRef_page page => MarkedRef_page (g page)
  | MarkedRef_stream stream => MarkedRef_stream (g stream)
  | MarkedRef_stream_owner owner => MarkedRef_stream_owner (g owner)
  | c => c
  end.
Definition MarkedRef_ren (g : Z -> Z) (cs : MarkedRef_calls) : MarkedRef_calls := map (ren_raw g (MarkedRef_ren_call g)) cs.
Definition ObjectRef_ren_call (g : Z -> Z) (c : ObjectRef_call) : ObjectRef_call :=
  match c with
  | ObjectRef_page page => ObjectRef_page (g page)
  | ObjectRef_object obj => ObjectRef_object (g obj)
  end.
Definition ObjectRef_ren (g : Z -> Z) (cs : ObjectRef_calls) : ObjectRef_calls := map (ren_raw g (ObjectRef_ren_call g)) cs.
Definition StructChildren_ren_call (g : Z -> Z) (c : StructChildren_call) : StructChildren_call :=
  match c with
  | StructChildren_struct_element id => StructChildren_struct_element (g id)
  | StructChildren_marked_content_ref calls => StructChildren_marked_content_ref (MarkedRef_ren g calls)
  | StructChildren_object_ref calls => StructChildren_object_ref (ObjectRef_ren g calls)
  | c => c
  end.
Definition StructChildren_ren (g : Z -> Z) (cs : StructChildren_calls) : StructChildren_calls := map (ren_item g (StructChildren_ren_call g)) cs.
Definition StructElement_ren_call (g : Z -> Z) (c : StructElement_call) : StructElement_call :=
  match c with
  | StructElement_kind_2 role pdf_2_ns => StructElement_kind_2 role (g pdf_2_ns)
  | StructElement_parent parent => StructElement_parent (g parent)
  | StructElement_refs refs_ => StructElement_refs (map g refs_)
  | StructElement_page page => StructElement_page (g page)
  | StructElement_child id => StructElement_child (g id)
  | StructElement_marked_content_child calls => StructElement_marked_content_child (MarkedRef_ren g calls)
  | StructElement_object_child calls => StructElement_object_child (ObjectRef_ren g calls)
  | StructElement_children calls => StructElement_children (StructChildren_ren g calls)
  | StructElement_attributes items => StructElement_attributes (map (Attributes_ren g) items)
  | StructElement_associated_files items => StructElement_associated_files (map (FileSpec_ren g) items)
  | StructElement_namespace ns => StructElement_namespace (g ns)
  | c => c
  end.
Definition StructElement_ren (g : Z -> Z) (cs : StructElement_calls) : StructElement_calls := map (ren_raw g (StructElement_ren_call g)) cs.
Definition RoleMap_ren_call (g : Z -> Z) (c : RoleMap_call) : RoleMap_call := c.
Definition RoleMap_ren (g : Z -> Z) (cs : RoleMap_calls) : RoleMap_calls := map (RoleMap_ren_call g) cs.
Definition ClassMap_ren_call (g : Z -> Z) (c : ClassMap_call) : ClassMap_call :=
  match c with
  | ClassMap_single name calls => ClassMap_single name (Attributes_ren g calls)
  | ClassMap_multiple name items => ClassMap_multiple name (map (Attributes_ren g) items)
  end.
Definition ClassMap_ren (g : Z -> Z) (cs : ClassMap_calls) : ClassMap_calls := map (ren_raw g (ClassMap_ren_call g)) cs.
Definition NamespaceRoleMap_ren_call (g : Z -> Z) (c : NamespaceRoleMap_call) : NamespaceRoleMap_call :=
  match c with
  | NamespaceRoleMap_to_namespace name role ns_ref => NamespaceRoleMap_to_namespace name role (g ns_ref)
  | NamespaceRoleMap_to_pdf_2_0 name role pdf_2_ns => NamespaceRoleMap_to_pdf_2_0 name role (g pdf_2_ns)
  | c => c
  end.
Definition NamespaceRoleMap_ren (g : Z -> Z) (cs : NamespaceRoleMap_calls) : NamespaceRoleMap_calls := map (ren_raw g (NamespaceRoleMap_ren_call g)) cs.
Definition Namespace_ren_call (g : Z -> Z) (c : Namespace_call) : Namespace_call :=
  match c with
  | Namespace_schema calls => Namespace_schema (FileSpec_ren g calls)
  | Namespace_role_map_ns calls => Namespace_role_map_ns (NamespaceRoleMap_ren g calls)
  | c => c
  end.
Definition Namespace_ren (g : Z -> Z) (cs : Namespace_calls) : Namespace_calls := map (ren_raw g (Namespace_ren_call g)) cs.
Definition StructTreeRoot_ren_call (g : Z -> Z) (c : StructTreeRoot_call) : StructTreeRoot_call :=
  match c with
  | StructTreeRoot_child id => StructTreeRoot_child (g id)
  | StructTreeRoot_children items => StructTreeRoot_children (map g items)
  | StructTreeRoot_id_tree x => StructTreeRoot_id_tree (map (ren_name_tree g) x)
  | StructTreeRoot_parent_tree x => StructTreeRoot_parent_tree (map (ren_number_tree g) x)
  | StructTreeRoot_role_map calls => StructTreeRoot_role_map (RoleMap_ren g calls)
  | StructTreeRoot_class_map calls => StructTreeRoot_class_map (ClassMap_ren g calls)
  | StructTreeRoot_namespaces items => StructTreeRoot_namespaces (map g items)
  | StructTreeRoot_pronunciation_lexicon items => StructTreeRoot_pronunciation_lexicon (map g items)
  | StructTreeRoot_associated_files items => StructTreeRoot_associated_files (map (FileSpec_ren g) items)
  | c => c
  end.
Definition StructTreeRoot_ren (g : Z -> Z) (cs : StructTreeRoot_calls) : StructTreeRoot_calls := map (ren_raw g (StructTreeRoot_ren_call g)) cs.
Definition MarkInfo_ren_call (g : Z -> Z) (c : MarkInfo_call) : MarkInfo_call := c.
Definition MarkInfo_ren (g : Z -> Z) (cs : MarkInfo_calls) : MarkInfo_calls := map (ren_raw g (MarkInfo_ren_call g)) cs.
Definition Reference_ren_call (g : Z -> Z) (c : Reference_call) : Reference_call :=
  match c with
  | Reference_file_spec calls => Reference_file_spec (FileSpec_ren g calls)
  | c => c
  end.
Definition Reference_ren (g : Z -> Z) (cs : Reference_calls) : Reference_calls := map (ren_raw g (Reference_ren_call g)) cs.
Definition ImageXObject_ren_call (g : Z -> Z) (c : ImageXObject_call) : ImageXObject_call :=
  match c with
  | ImageXObject_color_space x => ImageXObject_color_space (ren_cs g x)
  | ImageXObject_stencil_mask mask => ImageXObject_stencil_mask (g mask)
  | ImageXObject_alternates alternates => ImageXObject_alternates (map g alternates)
  | ImageXObject_s_mask x_object => ImageXObject_s_mask (g x_object)
  | ImageXObject_metadata id => ImageXObject_metadata (g id)
  | ImageXObject_associated_files items => ImageXObject_associated_files (map (FileSpec_ren g) items)
  | c => c
  end.
Definition ImageXObject_ren (g : Z -> Z) (cs : ImageXObject_calls) : ImageXObject_calls := map (ren_stream g (Stream_ren_call g) (ImageXObject_ren_call g)) cs.
Definition FormXObject_ren_call (g : Z -> Z) (c : FormXObject_call) : FormXObject_call :=
  match c with
  | FormXObject_resources calls => FormXObject_resources (Resources_ren g calls)
  | FormXObject_group calls => FormXObject_group (Group_ren g calls)
  | FormXObject_reference calls => FormXObject_reference (Reference_ren g calls)
  | FormXObject_metadata id => FormXObject_metadata (g id)
  | FormXObject_associated_files items => FormXObject_associated_files (map (FileSpec_ren g) items)
  | c => c
  end.
Definition FormXObject_ren (g : Z -> Z) (cs : FormXObject_calls) : FormXObject_calls := map (ren_stream g (Stream_ren_call g) (FormXObject_ren_call g)) cs.
Definition SampledFunction_ren_call (g : Z -> Z) (c : SampledFunction_call) : SampledFunction_call := c.
Definition SampledFunction_ren (g : Z -> Z) (cs : SampledFunction_calls) : SampledFunction_calls := map (ren_stream g (Stream_ren_call g) (SampledFunction_ren_call g)) cs.
Definition ExponentialFunction_ren_call (g : Z -> Z) (c : ExponentialFunction_call) : ExponentialFunction_call := c.
Definition ExponentialFunction_ren (g : Z -> Z) (cs : ExponentialFunction_calls) : ExponentialFunction_calls := map (ren_raw g (ExponentialFunction_ren_call g)) cs.
Definition StitchingFunction_ren_call (g : Z -> Z) (c : StitchingFunction_call) : StitchingFunction_call :=
  match c with
  | StitchingFunction_functions functions => StitchingFunction_functions (map g functions)
  | c => c
  end.
Definition StitchingFunction_ren (g : Z -> Z) (cs : StitchingFunction_calls) : StitchingFunction_calls := map (ren_raw g (StitchingFunction_ren_call g)) cs.
Definition PostScriptFunction_ren_call (g : Z -> Z) (c : PostScriptFunction_call) : PostScriptFunction_call := c.
Definition PostScriptFunction_ren (g : Z -> Z) (cs : PostScriptFunction_calls) : PostScriptFunction_calls := map (ren_stream g (Stream_ren_call g) (PostScriptFunction_ren_call g)) cs.
Definition Metadata_ren_call (g : Z -> Z) (c : Metadata_call) : Metadata_call := c.
Definition Metadata_ren (g : Z -> Z) (cs : Metadata_calls) : Metadata_calls := map (ren_stream g (Stream_ren_call g) (Metadata_ren_call g)) cs.
Definition Encoding_ren_call (g : Z -> Z) (c : Encoding_call) : Encoding_call := c.
Definition Encoding_ren (g : Z -> Z) (cs : Encoding_calls) : Encoding_calls := map (ren_raw g (Encoding_ren_call g)) cs.
Definition Type1Font_ren_call (g : Z -> Z) (c : Type1Font_call) : Type1Font_call :=
  match c with
  | Type1Font_font_descriptor id => Type1Font_font_descriptor (g id)
  | Type1Font_encoding_custom calls => Type1Font_encoding_custom (Encoding_ren g calls)
  | Type1Font_to_unicode id => Type1Font_to_unicode (g id)
  | c => c
  end.
Definition Type1Font_ren (g : Z -> Z) (cs : Type1Font_calls) : Type1Font_calls := map (ren_raw g (Type1Font_ren_call g)) cs.
Definition Type3Font_ren_call (g : Z -> Z) (c : Type3Font_call) : Type3Font_call :=
  match c with
  | Type3Font_char_procs items => Type3Font_char_procs (ren_dict g items)
  | Type3Font_encoding_custom calls => Type3Font_encoding_custom (Encoding_ren g calls)
  | Type3Font_font_descriptor id => Type3Font_font_descriptor (g id)
  | Type3Font_resources calls => Type3Font_resources (Resources_ren g calls)
  | Type3Font_to_unicode id => Type3Font_to_unicode (g id)
  | c => c
  end.
Definition Type3Font_ren (g : Z -> Z) (cs : Type3Font_calls) : Type3Font_calls := map (ren_raw g (Type3Font_ren_call g)) cs.
Definition Type0Font_ren_call (g : Z -> Z) (c : Type0Font_call) : Type0Font_call :=
  match c with
  | Type0Font_encoding_cmap cmap => Type0Font_encoding_cmap (g cmap)
  | Type0Font_descendant_font cid_font => Type0Font_descendant_font (g cid_font)
  | Type0Font_to_unicode cmap => Type0Font_to_unicode (g cmap)
  | c => c
  end.
Definition Type0Font_ren (g : Z -> Z) (cs : Type0Font_calls) : Type0Font_calls := map (ren_raw g (Type0Font_ren_call g)) cs.
Definition CidFont_ren_call (g : Z -> Z) (c : CidFont_call) : CidFont_call :=
  match c with
  | CidFont_font_descriptor id => CidFont_font_descriptor (g id)
  | CidFont_cid_to_gid_map_stream stream => CidFont_cid_to_gid_map_stream (g stream)
  | c => c
  end.
Definition CidFont_ren (g : Z -> Z) (cs : CidFont_calls) : CidFont_calls := map (ren_raw g (CidFont_ren_call g)) cs.
Definition Cmap_ren_call (g : Z -> Z) (c : Cmap_call) : Cmap_call :=
  match c with
  | Cmap_use_cmap_stream cmap => Cmap_use_cmap_stream (g cmap)
  | c => c
  end.
Definition Cmap_ren (g : Z -> Z) (cs : Cmap_calls) : Cmap_calls := map (ren_stream g (Stream_ren_call g) (Cmap_ren_call g)) cs.
Definition DeveloperExtension_ren_call (g : Z -> Z) (c : DeveloperExtension_call) : DeveloperExtension_call := c.
Definition DeveloperExtension_ren (g : Z -> Z) (cs : DeveloperExtension_calls) : DeveloperExtension_calls := map (ren_raw g (DeveloperExtension_ren_call g)) cs.
Definition ViewerPreferences_ren_call (g : Z -> Z) (c : ViewerPreferences_call) : ViewerPreferences_call := c.
Definition ViewerPreferences_ren (g : Z -> Z) (cs : ViewerPreferences_calls) : ViewerPreferences_calls := map (ren_raw g (ViewerPreferences_ren_call g)) cs.
Definition PageLabel_ren_call (g : Z -> Z) (c : PageLabel_call) : PageLabel_call := c.
Definition PageLabel_ren (g : Z -> Z) (cs : PageLabel_calls) : PageLabel_calls := map (ren_raw g (PageLabel_ren_call g)) cs.
Definition DocumentInfo_ren_call (g : Z -> Z) (c : DocumentInfo_call) : DocumentInfo_call := c.
Definition DocumentInfo_ren (g : Z -> Z) (cs : DocumentInfo_calls) : DocumentInfo_calls := map (ren_raw g (DocumentInfo_ren_call g)) cs.
Definition Transition_ren_call (g : Z -> Z) (c : Transition_call) : Transition_call := c.
Definition Transition_ren (g : Z -> Z) (cs : Transition_calls) : Transition_calls := map (ren_raw g (Transition_ren_call g)) cs.
Definition Names_ren_call (g : Z -> Z) (c : Names_call) : Names_call :=
  match c with
  | Names_destinations x => Names_destinations (map (ren_name_tree g) x)
  | Names_appearances x => Names_appearances (map (ren_name_tree g) x)
  | Names_javascript x => Names_javascript (map (ren_name_tree g) x)
  | Names_pages x => Names_pages (map (ren_name_tree g) x)
  | Names_templates x => Names_templates (map (ren_name_tree g) x)
  | Names_capture_ids x => Names_capture_ids (map (ren_name_tree g) x)
  | Names_capture_urls x => Names_capture_urls (map (ren_name_tree g) x)
  | Names_embedded_files x => Names_embedded_files (map (ren_name_tree g) x)
  | Names_alternate_presentations x => Names_alternate_presentations (map (ren_name_tree g) x)
  | Names_renditions x => Names_renditions (map (ren_name_tree g) x)
  end.
Definition Names_ren (g : Z -> Z) (cs : Names_calls) : Names_calls := map (ren_raw g (Names_ren_call g)) cs.
Definition Pages_ren_call (g : Z -> Z) (c : Pages_call) : Pages_call :=
  match c with
  | Pages_parent parent => Pages_parent (g parent)
  | Pages_kids kids => Pages_kids (map g kids)
  | Pages_resources calls => Pages_resources (Resources_ren g calls)
  | c => c
  end.
Definition Pages_ren (g : Z -> Z) (cs : Pages_calls) : Pages_calls := map (ren_raw g (Pages_ren_call g)) cs.
Definition Page_ren_call (g : Z -> Z) (c : Page_call) : Page_call :=
  match c with
  | Page_parent parent => Page_parent (g parent)
  | Page_resources calls => Page_resources (Resources_ren g calls)
  | Page_contents id => Page_contents (g id)
  | Page_contents_array ids => Page_contents_array (map g ids)
  | Page_group calls => Page_group (Group_ren g calls)
  | Page_thumbnail id => Page_thumbnail (g id)
  | Page_transition calls => Page_transition (Transition_ren g calls)
  | Page_annotations ids => Page_annotations (map g ids)
  | Page_additional_actions calls => Page_additional_actions (AdditionalActions_ren g calls)
  | Page_metadata id => Page_metadata (g id)
  | Page_associated_files items => Page_associated_files (map (FileSpec_ren g) items)
  | c => c
  end.
Definition Page_ren (g : Z -> Z) (cs : Page_calls) : Page_calls := map (ren_raw g (Page_ren_call g)) cs.
Definition Outline_ren_call (g : Z -> Z) (c : Outline_call) : Outline_call :=
  match c with
  | Outline_first item => Outline_first (g item)
  | Outline_last item => Outline_last (g item)
  | c => c
  end.
Definition Outline_ren (g : Z -> Z) (cs : Outline_calls) : Outline_calls := map (ren_raw g (Outline_ren_call g)) cs.
Definition OutlineItem_ren_call (g : Z -> Z) (c : OutlineItem_call) : OutlineItem_call :=
  match c with
  | OutlineItem_parent outline => OutlineItem_parent (g outline)
  | OutlineItem_prev outline => OutlineItem_prev (g outline)
  | OutlineItem_next outline => OutlineItem_next (g outline)
  | OutlineItem_first outline => OutlineItem_first (g outline)
  | OutlineItem_last outline => OutlineItem_last (g outline)
  | OutlineItem_dest calls => OutlineItem_dest (Destination_ren g calls)
  | c => c
  end.
Definition OutlineItem_ren (g : Z -> Z) (cs : OutlineItem_calls) : OutlineItem_calls := map (ren_raw g (OutlineItem_ren_call g)) cs.
Definition Catalog_ren_call (g : Z -> Z) (c : Catalog_call) : Catalog_call :=
  match c with
  | Catalog_pages id => Catalog_pages (g id)
  | Catalog_page_labels x => Catalog_page_labels (map (ren_number_tree g) x)
  | Catalog_viewer_preferences calls => Catalog_viewer_preferences (ViewerPreferences_ren g calls)
  | Catalog_names calls => Catalog_names (Names_ren g calls)
  | Catalog_destinations id => Catalog_destinations (g id)
  | Catalog_outlines id => Catalog_outlines (g id)
  | Catalog_struct_tree_root calls => Catalog_struct_tree_root (StructTreeRoot_ren g calls)
  | Catalog_mark_info calls => Catalog_mark_info (MarkInfo_ren g calls)
  | Catalog_additional_actions calls => Catalog_additional_actions (AdditionalActions_ren g calls)
  | Catalog_form calls => Catalog_form (Form_ren g calls)
  | Catalog_metadata id => Catalog_metadata (g id)
  | Catalog_extensions items => Catalog_extensions (ren_dict (DeveloperExtension_ren g) items)
  | Catalog_separation_info calls => Catalog_separation_info (SeparationInfo_ren g calls)
  | Catalog_output_intents items => Catalog_output_intents (map (OutputIntent_ren g) items)
  | Catalog_associated_files items => Catalog_associated_files (map (FileSpec_ren g) items)
  | c => c
  end.
Definition Catalog_ren (g : Z -> Z) (cs : Catalog_calls) : Catalog_calls := map (ren_raw g (Catalog_ren_call g)) cs.

(** ** Typed constructors *)

(** The data of a stream is not touched. *)
Definition chunk_call_ren (g : Z -> Z) (c : chunk_call) : chunk_call :=
  match c with
  | Ck_pages calls => Ck_pages (Pages_ren g calls)
  | Ck_page calls => Ck_page (Page_ren g calls)
  | Ck_outline calls => Ck_outline (Outline_ren g calls)
  | Ck_outline_item calls => Ck_outline_item (OutlineItem_ren g calls)
  | Ck_destination calls => Ck_destination (Destination_ren g calls)
  | Ck_destinations calls => Ck_destinations (ren_dict (Destination_ren g) calls)
  | Ck_file_spec calls => Ck_file_spec (FileSpec_ren g calls)
  | Ck_embedded_file data calls => Ck_embedded_file data (EmbeddedFile_ren g calls)
  | Ck_struct_element calls => Ck_struct_element (StructElement_ren g calls)
  | Ck_namespace calls => Ck_namespace (Namespace_ren g calls)
  | Ck_metadata data calls => Ck_metadata data (Metadata_ren g calls)
  | Ck_image_xobject data calls => Ck_image_xobject data (ImageXObject_ren g calls)
  | Ck_form_xobject data calls => Ck_form_xobject data (FormXObject_ren g calls)
  | Ck_ext_graphics calls => Ck_ext_graphics (ExtGraphicsState_ren g calls)
  | Ck_type1_font calls => Ck_type1_font (Type1Font_ren g calls)
  | Ck_type3_font calls => Ck_type3_font (Type3Font_ren g calls)
  | Ck_type0_font calls => Ck_type0_font (Type0Font_ren g calls)
  | Ck_cid_font calls => Ck_cid_font (CidFont_ren g calls)
  | Ck_font_descriptor calls => Ck_font_descriptor (map (ren_fd g) calls)
  | Ck_cmap data calls => Ck_cmap data (Cmap_ren g calls)
  | Ck_color_space calls => Ck_color_space (ren_cs g calls)
  | Ck_function_shading calls => Ck_function_shading (FunctionShading_ren g calls)
  | Ck_stream_shading data calls => Ck_stream_shading data (StreamShading_ren g calls)
  | Ck_tiling_pattern data calls => Ck_tiling_pattern data (TilingPattern_ren g calls)
  | Ck_shading_pattern calls => Ck_shading_pattern (ShadingPattern_ren g calls)
  | Ck_icc_profile data calls => Ck_icc_profile data (map (ren_stream g (Stream_ren_call g) (ren_icc g)) calls)
  | Ck_sampled_function data calls => Ck_sampled_function data (SampledFunction_ren g calls)
  | Ck_exponential_function calls => Ck_exponential_function (ExponentialFunction_ren g calls)
  | Ck_stitching_function calls => Ck_stitching_function (StitchingFunction_ren g calls)
  | Ck_post_script_function data calls => Ck_post_script_function data (PostScriptFunction_ren g calls)
  | Ck_name_tree calls => Ck_name_tree (map (ren_name_tree g) calls)
  | Ck_number_tree calls => Ck_number_tree (map (ren_number_tree g) calls)
  | Ck_annotation calls => Ck_annotation (Annotation_ren g calls)
  | Ck_form_field calls => Ck_form_field (Field_ren g calls)
  | Ck_signature_field_lock calls => Ck_signature_field_lock (SignatureFieldLock_ren g calls)
  | Ck_signature_seed_value calls => Ck_signature_seed_value (SignatureSeedValue_ren g calls)
  | Ck_stream data calls => Ck_stream data (Stream_ren g calls)
  end.
