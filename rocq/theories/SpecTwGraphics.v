(** Specification of typed writers: resources, graphics state, patterns, shadings, output intents: the entries of every method, from its signature and documentation,
    and the conditions on its arguments. *)

From Coq Require Import ZArith List Bool.
From Verif Require ModelContent ModelCmap.
From Verif Require Import Bytes ModelFloat ModelBuf ModelObject ModelColor ModelSmall ModelPdf ModelTw ModelEnums ModelRoles ModelTwArgs ModelTwFiles ModelTwGraphics SpecLex SpecObj SpecText SpecMeans SpecPdf SpecTyped SpecColor SpecSmall SpecTw SpecEnums SpecRoles SpecTwArgs SpecTwFiles.
Import ListNotations.
Local Open Scope Z_scope.

(** ** Artifact *)

(** Written by the constructor: nothing. *)
Definition Artifact_head : list entry_spec := [].
Definition Artifact_doc (c : Artifact_call) : list entry_spec :=
  match c with
  | Artifact_kind kind => [(lit "Type", is_ArtifactType kind)]
  | Artifact_subtype subtype => [(lit "Subtype", is_ArtifactSubtype subtype)]
  | Artifact_bounding_box bbox => [(lit "BBox", is_rect bbox)]
  | Artifact_attached attachment => [(lit "Attached", is_array_of is_ArtifactAttachment attachment)]
  end.
Definition Artifact_call_ok (c : Artifact_call) : bool :=
  match c with
  | Artifact_kind _ => true
  | Artifact_subtype subtype => ArtifactSubtype_ok subtype
  | Artifact_bounding_box bbox => rect_ok bbox
  | Artifact_attached _ => true
  end.
Definition Artifact_reads (cs : Artifact_calls) : val -> Prop := writer_reads Artifact_head Artifact_doc cs.
Definition Artifact_ok (cs : Artifact_calls) : bool := forallb (raw_ok Artifact_call_ok) cs.

(** A sample: every method once. *)
Definition Artifact_sample : Artifact_calls := [
  Typed (Artifact_kind ArtifactType_Inline); Typed (Artifact_subtype (ArtifactSubtype_Custom (lit "Zz"))); Typed (Artifact_bounding_box (mkRect f32_zero f32_zero (FFin false 8388608 (-23)) (FFin false 8388608 (-23)))); Typed (Artifact_attached [ArtifactAttachment_Left]); Raw (lit "Extra") (OArray [OPrim (PBool true)])].

(** ** PropertyList *)

(** Written by the constructor: nothing. *)
Definition PropertyList_head : list entry_spec := [].
Definition PropertyList_doc (c : PropertyList_call) : list entry_spec :=
  match c with
  | PropertyList_identify identifier => [(lit "MCID", is_int identifier)]
  | PropertyList_actual_text text => [(lit "ActualText", is_textlike text)]
  | PropertyList_artifact calls => writer_doc [] Artifact_doc calls   (* the calls on the artifact that follow *)
  end.
Definition PropertyList_call_ok (c : PropertyList_call) : bool :=
  match c with
  | PropertyList_identify identifier => in_i32 identifier
  | PropertyList_actual_text text => textlike_ok text
  | PropertyList_artifact calls => Artifact_ok calls
  end.
Definition PropertyList_reads (cs : PropertyList_calls) : val -> Prop := writer_reads PropertyList_head PropertyList_doc cs.
Definition PropertyList_ok (cs : PropertyList_calls) : bool := forallb (raw_ok PropertyList_call_ok) cs.

(** A sample: every method once. *)
Definition PropertyList_sample : PropertyList_calls := [
  Typed (PropertyList_identify (-3)); Typed (PropertyList_actual_text (TextPlain [97; 128512])); Typed (PropertyList_artifact Artifact_sample); Raw (lit "Extra") (OArray [OPrim (PBool true)])].

(** ** Resources *)

(** Written by the constructor: nothing. *)
Definition Resources_head : list entry_spec := [].
Definition Resources_doc (c : Resources_call) : list entry_spec :=
  match c with
  | Resources_x_objects entries => [(lit "XObject", means (ODict entries))]
  | Resources_fonts entries => [(lit "Font", means (ODict entries))]
  | Resources_color_spaces entries => [(lit "ColorSpace", means (ODict entries))]
  | Resources_patterns entries => [(lit "Pattern", means (ODict entries))]
  | Resources_shadings entries => [(lit "Shading", means (ODict entries))]
  | Resources_ext_g_states entries => [(lit "ExtGState", means (ODict entries))]
  | Resources_proc_sets sets => [(lit "ProcSet", is_array_of is_ProcSet sets)]
  | Resources_proc_sets_all => [(lit "ProcSet", is_array [is_name (lit "PDF"); is_name (lit "Text"); is_name (lit "ImageB"); is_name (lit "ImageC"); is_name (lit "ImageI")])]
  | Resources_properties items => [(lit "Properties", is_dict_of PropertyList_reads items)]
  end.
Definition Resources_call_ok (c : Resources_call) : bool :=
  match c with
  | Resources_x_objects entries => obj_arg_ok (ODict entries)
  | Resources_fonts entries => obj_arg_ok (ODict entries)
  | Resources_color_spaces entries => obj_arg_ok (ODict entries)
  | Resources_patterns entries => obj_arg_ok (ODict entries)
  | Resources_shadings entries => obj_arg_ok (ODict entries)
  | Resources_ext_g_states entries => obj_arg_ok (ODict entries)
  | Resources_proc_sets _ => true
  | Resources_proc_sets_all => true
  | Resources_properties items => dict_ok PropertyList_ok items
  end.
Definition Resources_reads (cs : Resources_calls) : val -> Prop := writer_reads Resources_head Resources_doc cs.
Definition Resources_ok (cs : Resources_calls) : bool := forallb (raw_ok Resources_call_ok) cs.

(** A sample: every method once. *)
Definition Resources_sample : Resources_calls := [
  Typed (Resources_x_objects [(lit "F1", OPrim (PRef 9))]); Typed (Resources_fonts [(lit "F1", OPrim (PRef 9))]); Typed (Resources_color_spaces [(lit "F1", OPrim (PRef 9))]); Typed (Resources_patterns [(lit "F1", OPrim (PRef 9))]); Typed (Resources_shadings [(lit "F1", OPrim (PRef 9))]); Typed (Resources_ext_g_states [(lit "F1", OPrim (PRef 9))]); Typed (Resources_proc_sets [ProcSet_Pdf]); Typed Resources_proc_sets_all; Typed (Resources_properties [(lit "K1", PropertyList_sample)]); Raw (lit "Extra") (OArray [OPrim (PBool true)])].

(** ** SoftMask *)

(** Written by the constructor. *)
Definition SoftMask_head : list entry_spec := [(lit "Type", is_name (lit "Mask"))].
Definition SoftMask_doc (c : SoftMask_call) : list entry_spec :=
  match c with
  | SoftMask_subtype subtype => [(lit "S", is_MaskType subtype)]
  | SoftMask_group group => [(lit "G", is_ref group)]
  | SoftMask_backdrop color => [(lit "BC", is_reals color)]
  | SoftMask_transfer_function function => [(lit "TR", is_ref function)]
  end.
Definition SoftMask_call_ok (c : SoftMask_call) : bool :=
  match c with
  | SoftMask_subtype _ => true
  | SoftMask_group group => ref_ok group
  | SoftMask_backdrop color => forallb real_ok color
  | SoftMask_transfer_function function => ref_ok function
  end.
Definition SoftMask_reads (cs : SoftMask_calls) : val -> Prop := writer_reads SoftMask_head SoftMask_doc cs.
Definition SoftMask_ok (cs : SoftMask_calls) : bool := forallb (raw_ok SoftMask_call_ok) cs.

(** A sample: every method once. *)
Definition SoftMask_sample : SoftMask_calls := [
  Typed (SoftMask_subtype MaskType_Luminosity); Typed (SoftMask_group 7); Typed (SoftMask_backdrop [(FFin false 8388608 (-23)); f32_zero]); Typed (SoftMask_transfer_function 7); Raw (lit "Extra") (OArray [OPrim (PBool true)])].

(** ** ExtGraphicsState *)

(** Written by the constructor. *)
Definition ExtGraphicsState_head : list entry_spec := [(lit "Type", is_name (lit "ExtGState"))].
Definition ExtGraphicsState_doc (c : ExtGraphicsState_call) : list entry_spec :=
  match c with
  | ExtGraphicsState_line_width width => [(lit "LW", is_real width)]
  | ExtGraphicsState_line_cap cap => [(lit "LC", is_LineCapStyle cap)]
  | ExtGraphicsState_line_join join => [(lit "LJ", is_LineJoinStyle join)]
  | ExtGraphicsState_miter_limit limit => [(lit "ML", is_real limit)]
  | ExtGraphicsState_dash_pattern pattern phase => [(lit "D", is_array [is_reals pattern; is_real phase])]
  | ExtGraphicsState_rendering_intent intent => [(lit "RI", is_RenderingIntent intent)]
  | ExtGraphicsState_overprint overprint => [(lit "OP", is_bool overprint)]
  | ExtGraphicsState_overprint_fill overprint => [(lit "op", is_bool overprint)]
  | ExtGraphicsState_overprint_mode mode => [(lit "OPM", is_OverprintMode mode)]
  | ExtGraphicsState_font font size => [(lit "Font", is_array [is_name font; is_real size])]   (* ISO 32000 wants a reference: see C55_font_refuted *)
  | ExtGraphicsState_black_generation func => [(lit "BG", is_ref func)]
  | ExtGraphicsState_black_generation_default => [(lit "BG2", is_name (lit "Default"))]
  | ExtGraphicsState_undercolor_removal func => [(lit "UCR", is_ref func)]
  | ExtGraphicsState_undercolor_removal_default => [(lit "UCR2", is_name (lit "Default"))]
  | ExtGraphicsState_transfer func => [(lit "TR", is_ref func)]
  | ExtGraphicsState_transfer_default => [(lit "TR2", is_name (lit "Default"))]
  | ExtGraphicsState_halftone ht => [(lit "HT", is_ref ht)]
  | ExtGraphicsState_halftone_default => [(lit "HT", is_name (lit "Default"))]
  | ExtGraphicsState_flatness tolerance => [(lit "FL", is_real tolerance)]
  | ExtGraphicsState_smoothness tolerance => [(lit "SM", is_real tolerance)]
  | ExtGraphicsState_stroke_adjustment adjust => [(lit "SA", is_bool adjust)]
  | ExtGraphicsState_blend_mode mode => [(lit "BM", is_BlendMode mode)]
  | ExtGraphicsState_soft_mask calls => [(lit "SMask", SoftMask_reads calls)]
  | ExtGraphicsState_soft_mask_name mask => [(lit "SMask", is_name mask)]
  | ExtGraphicsState_stroking_alpha alpha => [(lit "CA", is_real alpha)]
  | ExtGraphicsState_non_stroking_alpha alpha => [(lit "ca", is_real alpha)]
  | ExtGraphicsState_alpha_source source => [(lit "AIS", is_bool source)]
  | ExtGraphicsState_text_knockout knockout => [(lit "TK", is_bool knockout)]
  end.
Definition ExtGraphicsState_call_ok (c : ExtGraphicsState_call) : bool :=
  match c with
  | ExtGraphicsState_line_width width => real_ok width
  | ExtGraphicsState_line_cap _ => true
  | ExtGraphicsState_line_join _ => true
  | ExtGraphicsState_miter_limit limit => real_ok limit
  | ExtGraphicsState_dash_pattern pattern phase => forallb real_ok pattern && real_ok phase
  | ExtGraphicsState_rendering_intent _ => true
  | ExtGraphicsState_overprint _ => true
  | ExtGraphicsState_overprint_fill _ => true
  | ExtGraphicsState_overprint_mode _ => true
  | ExtGraphicsState_font font size => name_ok font && real_ok size
  | ExtGraphicsState_black_generation func => ref_ok func
  | ExtGraphicsState_black_generation_default => true
  | ExtGraphicsState_undercolor_removal func => ref_ok func
  | ExtGraphicsState_undercolor_removal_default => true
  | ExtGraphicsState_transfer func => ref_ok func
  | ExtGraphicsState_transfer_default => true
  | ExtGraphicsState_halftone ht => ref_ok ht
  | ExtGraphicsState_halftone_default => true
  | ExtGraphicsState_flatness tolerance => real_ok tolerance
  | ExtGraphicsState_smoothness tolerance => real_ok tolerance
  | ExtGraphicsState_stroke_adjustment _ => true
  | ExtGraphicsState_blend_mode _ => true
  | ExtGraphicsState_soft_mask calls => SoftMask_ok calls
  | ExtGraphicsState_soft_mask_name mask => name_ok mask
  | ExtGraphicsState_stroking_alpha alpha => real_ok alpha
  | ExtGraphicsState_non_stroking_alpha alpha => real_ok alpha
  | ExtGraphicsState_alpha_source _ => true
  | ExtGraphicsState_text_knockout _ => true
  end.
Definition ExtGraphicsState_reads (cs : ExtGraphicsState_calls) : val -> Prop := writer_reads ExtGraphicsState_head ExtGraphicsState_doc cs.
Definition ExtGraphicsState_ok (cs : ExtGraphicsState_calls) : bool := forallb (raw_ok ExtGraphicsState_call_ok) cs.

(** A sample: every method once. *)
Definition ExtGraphicsState_sample : ExtGraphicsState_calls := [
  Typed (ExtGraphicsState_line_width (FFin false 8388608 (-23))); Typed (ExtGraphicsState_line_cap ModelContent.ProjectingSquareCap); Typed (ExtGraphicsState_line_join ModelContent.BevelJoin); Typed (ExtGraphicsState_miter_limit (FFin false 8388608 (-23))); Typed (ExtGraphicsState_dash_pattern [(FFin false 8388608 (-23)); f32_zero] (FFin false 8388608 (-23))); Typed (ExtGraphicsState_rendering_intent ModelContent.Perceptual); Typed (ExtGraphicsState_overprint true); Typed (ExtGraphicsState_overprint_fill true); Typed (ExtGraphicsState_overprint_mode OverprintMode_IgnoreZeroChannel); Typed (ExtGraphicsState_font (lit "a b") (FFin false 8388608 (-23))); Typed (ExtGraphicsState_black_generation 7); Typed ExtGraphicsState_black_generation_default; Typed (ExtGraphicsState_undercolor_removal 7); Typed ExtGraphicsState_undercolor_removal_default; Typed (ExtGraphicsState_transfer 7); Typed ExtGraphicsState_transfer_default; Typed (ExtGraphicsState_halftone 7); Typed ExtGraphicsState_halftone_default; Typed (ExtGraphicsState_flatness (FFin false 8388608 (-23))); Typed (ExtGraphicsState_smoothness (FFin false 8388608 (-23))); Typed (ExtGraphicsState_stroke_adjustment true); Typed (ExtGraphicsState_blend_mode BlendMode_Luminosity); Typed (ExtGraphicsState_soft_mask SoftMask_sample); Typed (ExtGraphicsState_soft_mask_name (lit "a b")); Typed (ExtGraphicsState_stroking_alpha (FFin false 8388608 (-23))); Typed (ExtGraphicsState_non_stroking_alpha (FFin false 8388608 (-23))); Typed (ExtGraphicsState_alpha_source true); Typed (ExtGraphicsState_text_knockout true); Raw (lit "Extra") (OArray [OPrim (PBool true)])].

(** ** TilingPattern *)

(** Written by the constructor. *)
Definition TilingPattern_head : list entry_spec := [(lit "Type", is_name (lit "Pattern")); (lit "PatternType", is_int 1)].
Definition TilingPattern_doc (c : TilingPattern_call) : list entry_spec :=
  match c with
  | TilingPattern_paint_type paint_type => [(lit "PaintType", is_PaintType paint_type)]
  | TilingPattern_tiling_type tiling_type => [(lit "TilingType", is_TilingType tiling_type)]
  | TilingPattern_bbox bbox => [(lit "BBox", is_rect bbox)]
  | TilingPattern_x_step x_step => [(lit "XStep", is_real x_step)]
  | TilingPattern_y_step y_step => [(lit "YStep", is_real y_step)]
  | TilingPattern_resources calls => [(lit "Resources", Resources_reads calls)]
  | TilingPattern_matrix matrix => [(lit "Matrix", is_reals (in_order6 matrix))]
  end.
Definition TilingPattern_call_ok (c : TilingPattern_call) : bool :=
  match c with
  | TilingPattern_paint_type _ => true
  | TilingPattern_tiling_type _ => true
  | TilingPattern_bbox bbox => rect_ok bbox
  | TilingPattern_x_step x_step => real_ok x_step
  | TilingPattern_y_step y_step => real_ok y_step
  | TilingPattern_resources calls => Resources_ok calls
  | TilingPattern_matrix matrix => ok6 matrix
  end.
(** The calls that do not panic. *)
Definition TilingPattern_call_allowed (c : TilingPattern_call) : Prop :=
  match c with
  | TilingPattern_paint_type _ => True
  | TilingPattern_tiling_type _ => True
  | TilingPattern_bbox _ => True
  | TilingPattern_x_step x_step => ~ is_zero x_step
  | TilingPattern_y_step y_step => ~ is_zero y_step
  | TilingPattern_resources _ => True
  | TilingPattern_matrix _ => True
  end.
Definition TilingPattern_reads (cs : TilingPattern_calls) : list entry_spec := TilingPattern_head ++ flat_map (stream_doc Stream_doc TilingPattern_doc) cs.
Definition TilingPattern_ok (cs : TilingPattern_calls) : bool := forallb (stream_ok Stream_call_ok TilingPattern_call_ok) cs.
Definition TilingPattern_allowed (cs : TilingPattern_calls) : Prop := Forall (stream_allowed Stream_call_allowed TilingPattern_call_allowed) cs.

(** A sample: every method once. *)
Definition TilingPattern_sample : TilingPattern_calls := [
  STyped (TilingPattern_paint_type PaintType_Uncolored); STyped (TilingPattern_tiling_type TilingType_FastConstantSpacing); STyped (TilingPattern_bbox (mkRect f32_zero f32_zero (FFin false 8388608 (-23)) (FFin false 8388608 (-23)))); STyped (TilingPattern_x_step (FFin false 8388608 (-23))); STyped (TilingPattern_y_step (FFin false 8388608 (-23))); STyped (TilingPattern_resources Resources_sample); STyped (TilingPattern_matrix (((FFin false 8388608 (-23)), f32_zero, f32_zero), ((FFin false 8388608 (-23)), f32_zero, f32_zero))); SStream (Stream_filter FlateDecode); SRaw (lit "Extra") (OPrim (PInt 5))].

(** ** FunctionShading *)

(** Written by the constructor: nothing. *)
Definition FunctionShading_head : list entry_spec := [].
Definition FunctionShading_doc (c : FunctionShading_call) : list entry_spec :=
  match c with
  | FunctionShading_shading_type kind => [(lit "ShadingType", is_FunctionShadingType kind)]
  | FunctionShading_color_space x => [(lit "ColorSpace", cs_reads x)]
  | FunctionShading_background background => [(lit "Background", is_reals background)]
  | FunctionShading_bbox bbox => [(lit "BBox", is_rect bbox)]
  | FunctionShading_anti_alias anti_alias => [(lit "AntiAlias", is_bool anti_alias)]
  | FunctionShading_domain domain => [(lit "Domain", is_reals (in_order4 domain))]
  | FunctionShading_matrix matrix => [(lit "Matrix", is_reals (in_order6 matrix))]
  | FunctionShading_function function => [(lit "Function", is_ref function)]
  | FunctionShading_coords coords => [(lit "Coords", is_reals coords)]
  | FunctionShading_extend extend => [(lit "Extend", is_array_of is_bool [fst extend; snd extend])]
  end.
Definition FunctionShading_call_ok (c : FunctionShading_call) : bool :=
  match c with
  | FunctionShading_shading_type _ => true
  | FunctionShading_color_space x => cs_ok x
  | FunctionShading_background background => forallb real_ok background
  | FunctionShading_bbox bbox => rect_ok bbox
  | FunctionShading_anti_alias _ => true
  | FunctionShading_domain domain => ok4 domain
  | FunctionShading_matrix matrix => ok6 matrix
  | FunctionShading_function function => ref_ok function
  | FunctionShading_coords coords => forallb real_ok coords
  | FunctionShading_extend _ => true
  end.
(** The calls that do not panic. *)
Definition FunctionShading_call_allowed (c : FunctionShading_call) : Prop :=
  match c with
  | FunctionShading_shading_type _ => True
  | FunctionShading_color_space x => cs_allowed x
  | FunctionShading_background _ => True
  | FunctionShading_bbox _ => True
  | FunctionShading_anti_alias _ => True
  | FunctionShading_domain _ => True
  | FunctionShading_matrix _ => True
  | FunctionShading_function _ => True
  | FunctionShading_coords _ => True
  | FunctionShading_extend _ => True
  end.
Definition FunctionShading_reads (cs : FunctionShading_calls) : val -> Prop := writer_reads FunctionShading_head FunctionShading_doc cs.
Definition FunctionShading_ok (cs : FunctionShading_calls) : bool := forallb (raw_ok FunctionShading_call_ok) cs.
Definition FunctionShading_allowed (cs : FunctionShading_calls) : Prop := Forall (raw_allowed FunctionShading_call_allowed) cs.

(** A sample: every method once. *)
Definition FunctionShading_sample : FunctionShading_calls := [
  Typed (FunctionShading_shading_type FunctionShadingType_Radial); Typed (FunctionShading_color_space (CsIccBased 5)); Typed (FunctionShading_background [(FFin false 8388608 (-23)); f32_zero]); Typed (FunctionShading_bbox (mkRect f32_zero f32_zero (FFin false 8388608 (-23)) (FFin false 8388608 (-23)))); Typed (FunctionShading_anti_alias true); Typed (FunctionShading_domain (f32_zero, (FFin false 8388608 (-23)), f32_zero, f32_zero)); Typed (FunctionShading_matrix (((FFin false 8388608 (-23)), f32_zero, f32_zero), ((FFin false 8388608 (-23)), f32_zero, f32_zero))); Typed (FunctionShading_function 7); Typed (FunctionShading_coords [(FFin false 8388608 (-23)); f32_zero]); Typed (FunctionShading_extend (true, false)); Raw (lit "Extra") (OArray [OPrim (PBool true)])].

(** ** ShadingPattern *)

(** Written by the constructor. *)
Definition ShadingPattern_head : list entry_spec := [(lit "Type", is_name (lit "Pattern")); (lit "PatternType", is_int 2)].
Definition ShadingPattern_doc (c : ShadingPattern_call) : list entry_spec :=
  match c with
  | ShadingPattern_function_shading calls => [(lit "Shading", FunctionShading_reads calls)]
  | ShadingPattern_shading_ref id => [(lit "Shading", is_ref id)]
  | ShadingPattern_matrix matrix => [(lit "Matrix", is_reals (in_order6 matrix))]
  | ShadingPattern_ext_graphics calls => [(lit "ExtGState", ExtGraphicsState_reads calls)]
  end.
Definition ShadingPattern_call_ok (c : ShadingPattern_call) : bool :=
  match c with
  | ShadingPattern_function_shading calls => FunctionShading_ok calls
  | ShadingPattern_shading_ref id => ref_ok id
  | ShadingPattern_matrix matrix => ok6 matrix
  | ShadingPattern_ext_graphics calls => ExtGraphicsState_ok calls
  end.
(** The calls that do not panic. *)
Definition ShadingPattern_call_allowed (c : ShadingPattern_call) : Prop :=
  match c with
  | ShadingPattern_function_shading calls => FunctionShading_allowed calls
  | ShadingPattern_shading_ref _ => True
  | ShadingPattern_matrix _ => True
  | ShadingPattern_ext_graphics _ => True
  end.
Definition ShadingPattern_reads (cs : ShadingPattern_calls) : val -> Prop := writer_reads ShadingPattern_head ShadingPattern_doc cs.
Definition ShadingPattern_ok (cs : ShadingPattern_calls) : bool := forallb (raw_ok ShadingPattern_call_ok) cs.
Definition ShadingPattern_allowed (cs : ShadingPattern_calls) : Prop := Forall (raw_allowed ShadingPattern_call_allowed) cs.

(** A sample: every method once. *)
Definition ShadingPattern_sample : ShadingPattern_calls := [
  Typed (ShadingPattern_function_shading FunctionShading_sample); Typed (ShadingPattern_shading_ref 7); Typed (ShadingPattern_matrix (((FFin false 8388608 (-23)), f32_zero, f32_zero), ((FFin false 8388608 (-23)), f32_zero, f32_zero))); Typed (ShadingPattern_ext_graphics ExtGraphicsState_sample); Raw (lit "Extra") (OArray [OPrim (PBool true)])].

(** ** StreamShading *)

(** Written by the constructor: nothing. *)
Definition StreamShading_head : list entry_spec := [].
Definition StreamShading_doc (c : StreamShading_call) : list entry_spec :=
  match c with
  | StreamShading_shading_type kind => [(lit "ShadingType", is_StreamShadingType kind)]
  | StreamShading_color_space x => [(lit "ColorSpace", cs_reads x)]
  | StreamShading_background background => [(lit "Background", is_reals background)]
  | StreamShading_bbox bbox => [(lit "BBox", is_rect bbox)]
  | StreamShading_anti_alias anti_alias => [(lit "AntiAlias", is_bool anti_alias)]
  | StreamShading_function function => [(lit "Function", is_ref function)]
  | StreamShading_bits_per_coordinate bits => [(lit "BitsPerCoordinate", is_int bits)]
  | StreamShading_bits_per_component bits => [(lit "BitsPerComponent", is_int bits)]
  | StreamShading_bits_per_flag bits => [(lit "BitsPerFlag", is_int bits)]
  | StreamShading_decode decode => [(lit "Decode", is_reals decode)]
  | StreamShading_vertices_per_row vertices => [(lit "VerticesPerRow", is_int vertices)]
  end.
Definition StreamShading_call_ok (c : StreamShading_call) : bool :=
  match c with
  | StreamShading_shading_type _ => true
  | StreamShading_color_space x => cs_ok x
  | StreamShading_background background => forallb real_ok background
  | StreamShading_bbox bbox => rect_ok bbox
  | StreamShading_anti_alias _ => true
  | StreamShading_function function => ref_ok function
  | StreamShading_bits_per_coordinate bits => in_i32 bits
  | StreamShading_bits_per_component bits => in_i32 bits
  | StreamShading_bits_per_flag bits => in_i32 bits
  | StreamShading_decode decode => forallb real_ok decode
  | StreamShading_vertices_per_row vertices => in_i32 vertices
  end.
(** The calls that do not panic. *)
Definition StreamShading_call_allowed (c : StreamShading_call) : Prop :=
  match c with
  | StreamShading_shading_type _ => True
  | StreamShading_color_space x => cs_allowed x
  | StreamShading_background _ => True
  | StreamShading_bbox _ => True
  | StreamShading_anti_alias _ => True
  | StreamShading_function _ => True
  | StreamShading_bits_per_coordinate _ => True
  | StreamShading_bits_per_component _ => True
  | StreamShading_bits_per_flag _ => True
  | StreamShading_decode _ => True
  | StreamShading_vertices_per_row _ => True
  end.
Definition StreamShading_reads (cs : StreamShading_calls) : list entry_spec := StreamShading_head ++ flat_map (stream_doc Stream_doc StreamShading_doc) cs.
Definition StreamShading_ok (cs : StreamShading_calls) : bool := forallb (stream_ok Stream_call_ok StreamShading_call_ok) cs.
Definition StreamShading_allowed (cs : StreamShading_calls) : Prop := Forall (stream_allowed Stream_call_allowed StreamShading_call_allowed) cs.

(** A sample: every method once. *)
Definition StreamShading_sample : StreamShading_calls := [
  STyped (StreamShading_shading_type StreamShadingType_TensorProductPatch); STyped (StreamShading_color_space (CsIccBased 5)); STyped (StreamShading_background [(FFin false 8388608 (-23)); f32_zero]); STyped (StreamShading_bbox (mkRect f32_zero f32_zero (FFin false 8388608 (-23)) (FFin false 8388608 (-23)))); STyped (StreamShading_anti_alias true); STyped (StreamShading_function 7); STyped (StreamShading_bits_per_coordinate (-3)); STyped (StreamShading_bits_per_component (-3)); STyped (StreamShading_bits_per_flag (-3)); STyped (StreamShading_decode [(FFin false 8388608 (-23)); f32_zero]); STyped (StreamShading_vertices_per_row (-3)); SStream (Stream_filter FlateDecode); SRaw (lit "Extra") (OPrim (PInt 5))].

(** ** SeparationInfo *)

(** Written by the constructor: nothing. *)
Definition SeparationInfo_head : list entry_spec := [].
Definition SeparationInfo_doc (c : SeparationInfo_call) : list entry_spec :=
  match c with
  | SeparationInfo_pages pages => [(lit "Pages", is_refs pages)]
  | SeparationInfo_device_colorant colorant => [(lit "DeviceColorant", is_name colorant)]
  | SeparationInfo_device_colorant_str colorant => [(lit "DeviceColorant", is_text colorant)]
  | SeparationInfo_color_space x => [(lit "ColorSpace", cs_reads x)]
  end.
Definition SeparationInfo_call_ok (c : SeparationInfo_call) : bool :=
  match c with
  | SeparationInfo_pages pages => forallb ref_ok pages
  | SeparationInfo_device_colorant colorant => name_ok colorant
  | SeparationInfo_device_colorant_str colorant => text_ok colorant
  | SeparationInfo_color_space x => cs_ok x
  end.
(** The calls that do not panic. *)
Definition SeparationInfo_call_allowed (c : SeparationInfo_call) : Prop :=
  match c with
  | SeparationInfo_pages _ => True
  | SeparationInfo_device_colorant _ => True
  | SeparationInfo_device_colorant_str _ => True
  | SeparationInfo_color_space x => cs_allowed x
  end.
Definition SeparationInfo_reads (cs : SeparationInfo_calls) : val -> Prop := writer_reads SeparationInfo_head SeparationInfo_doc (map Typed cs).
Definition SeparationInfo_ok (cs : SeparationInfo_calls) : bool := forallb (raw_ok SeparationInfo_call_ok) (map Typed cs).
Definition SeparationInfo_allowed (cs : SeparationInfo_calls) : Prop := Forall (raw_allowed SeparationInfo_call_allowed) (map Typed cs).

(** A sample: every method once. *)
Definition SeparationInfo_sample : SeparationInfo_calls := [
  (SeparationInfo_pages [3; 4]); (SeparationInfo_device_colorant (lit "a b")); (SeparationInfo_device_colorant_str [65]); (SeparationInfo_color_space (CsIccBased 5))].

(** ** OutputIntent *)

(** Written by the constructor. *)
Definition OutputIntent_head : list entry_spec := [(lit "Type", is_name (lit "OutputIntent"))].
Definition OutputIntent_doc (c : OutputIntent_call) : list entry_spec :=
  match c with
  | OutputIntent_subtype subtype => [(lit "S", is_OutputIntentSubtype subtype)]
  | OutputIntent_output_condition condition => [(lit "OutputCondition", is_textlike condition)]
  | OutputIntent_output_condition_identifier identifier => [(lit "OutputConditionIdentifier", is_textlike identifier)]
  | OutputIntent_registry_name name => [(lit "RegistryName", is_text name)]
  | OutputIntent_info info => [(lit "Info", is_textlike info)]
  | OutputIntent_dest_output_profile profile => [(lit "DestOutputProfile", is_ref profile)]
  end.
Definition OutputIntent_call_ok (c : OutputIntent_call) : bool :=
  match c with
  | OutputIntent_subtype subtype => OutputIntentSubtype_ok subtype
  | OutputIntent_output_condition condition => textlike_ok condition
  | OutputIntent_output_condition_identifier identifier => textlike_ok identifier
  | OutputIntent_registry_name name => text_ok name
  | OutputIntent_info info => textlike_ok info
  | OutputIntent_dest_output_profile profile => ref_ok profile
  end.
Definition OutputIntent_reads (cs : OutputIntent_calls) : val -> Prop := writer_reads OutputIntent_head OutputIntent_doc (map Typed cs).
Definition OutputIntent_ok (cs : OutputIntent_calls) : bool := forallb (raw_ok OutputIntent_call_ok) (map Typed cs).

(** A sample: every method once. *)
Definition OutputIntent_sample : OutputIntent_calls := [
  (OutputIntent_subtype (OutputIntentSubtype_Custom (lit "Zz"))); (OutputIntent_output_condition (TextPlain [97; 128512])); (OutputIntent_output_condition_identifier (TextPlain [97; 128512])); (OutputIntent_registry_name [960; 65]); (OutputIntent_info (TextPlain [97; 128512])); (OutputIntent_dest_output_profile 7)].

(** ** Group *)

(** Written by the constructor. *)
Definition Group_head : list entry_spec := [(lit "Type", is_name (lit "Group"))].
Definition Group_doc (c : Group_call) : list entry_spec :=
  match c with
  | Group_transparency => [(lit "S", is_name (lit "Transparency"))]
  | Group_color_space x => [(lit "CS", cs_reads x)]
  | Group_isolated isolated => [(lit "I", is_bool isolated)]
  | Group_knockout knockout => [(lit "K", is_bool knockout)]
  end.
Definition Group_call_ok (c : Group_call) : bool :=
  match c with
  | Group_transparency => true
  | Group_color_space x => cs_ok x
  | Group_isolated _ => true
  | Group_knockout _ => true
  end.
(** The calls that do not panic. *)
Definition Group_call_allowed (c : Group_call) : Prop :=
  match c with
  | Group_transparency => True
  | Group_color_space x => cs_allowed x
  | Group_isolated _ => True
  | Group_knockout _ => True
  end.
Definition Group_reads (cs : Group_calls) : val -> Prop := writer_reads Group_head Group_doc cs.
Definition Group_ok (cs : Group_calls) : bool := forallb (raw_ok Group_call_ok) cs.
Definition Group_allowed (cs : Group_calls) : Prop := Forall (raw_allowed Group_call_allowed) cs.

(** A sample: every method once. *)
Definition Group_sample : Group_calls := [
  Typed Group_transparency; Typed (Group_color_space (CsIccBased 5)); Typed (Group_isolated true); Typed (Group_knockout true); Raw (lit "Extra") (OArray [OPrim (PBool true)])].
