(** Model of typed writers: resources, graphics state, patterns, shadings, output intents.  Generated by gen/gen_writers.py from the source text. *)

From Coq Require Import ZArith List Bool.
From Verif Require ModelContent ModelCmap.
From Verif Require Import Bytes ModelFloat ModelBuf ModelObject ModelColor ModelSmall ModelPdf ModelTw ModelEnums ModelRoles ModelTwArgs ModelTwFiles.
Import ListNotations.
Local Open Scope Z_scope.

(** ** Artifact (src/content.rs) *)

Inductive Artifact_call :=
| Artifact_kind (kind : ArtifactType)
| Artifact_subtype (subtype : ArtifactSubtype)
| Artifact_bounding_box (bbox : rect)
| Artifact_attached (attachment : list ArtifactAttachment).
Definition Artifact_entries (c : Artifact_call) : list (bytes * obj) :=
  match c with
  | Artifact_kind kind => [(lit "Type", OPrim (PName (ArtifactType_name kind)))]   (* src/content.rs:1091-1094 *)
  | Artifact_subtype subtype => [(lit "Subtype", OPrim (PName (ArtifactSubtype_name subtype)))]   (* src/content.rs:1099-1102 *)
  | Artifact_bounding_box bbox => [(lit "BBox", OPrim (PRect bbox))]   (* src/content.rs:1107-1110 *)
  | Artifact_attached attachment => [(lit "Attached", arr_of (fun e => OPrim (PName (ArtifactAttachment_name e))) attachment)]   (* src/content.rs:1116-1125 *)
  end.
(** src/content.rs:1084-1086: no entries. *)
Definition Artifact_header : list (bytes * obj) := [].
Definition Artifact_calls : Type := list (or_raw Artifact_call).
Definition Artifact_obj (cs : Artifact_calls) : obj := dict_writer Artifact_header Artifact_entries cs.

(** ** PropertyList (src/content.rs) *)

Inductive PropertyList_call :=
| PropertyList_identify (identifier : Z)
| PropertyList_actual_text (text : textlike)
| PropertyList_artifact (calls : Artifact_calls).
Definition PropertyList_entries (c : PropertyList_call) : list (bytes * obj) :=
  match c with
  | PropertyList_identify identifier => [(lit "MCID", OPrim (PInt identifier))]   (* src/content.rs:1050-1053 *)
  | PropertyList_actual_text text => [(lit "ActualText", OPrim (text_prim text))]   (* src/content.rs:1058-1061 *)
  | PropertyList_artifact calls => writer_list [] Artifact_entries calls   (* src/content.rs:1066-1068 *)
  end.
(** src/content.rs:1045: no entries. *)
Definition PropertyList_header : list (bytes * obj) := [].
Definition PropertyList_calls : Type := list (or_raw PropertyList_call).
Definition PropertyList_obj (cs : PropertyList_calls) : obj := dict_writer PropertyList_header PropertyList_entries cs.

(** ** Resources (src/content.rs) *)

Inductive Resources_call :=
| Resources_x_objects (entries : list (bytes * obj))
| Resources_fonts (entries : list (bytes * obj))
| Resources_color_spaces (entries : list (bytes * obj))
| Resources_patterns (entries : list (bytes * obj))
| Resources_shadings (entries : list (bytes * obj))
| Resources_ext_g_states (entries : list (bytes * obj))
| Resources_proc_sets (sets : list ProcSet)
| Resources_proc_sets_all
| Resources_properties (items : list (bytes * PropertyList_calls)).
Definition Resources_entries (c : Resources_call) : list (bytes * obj) :=
  match c with
  | Resources_x_objects entries => [(lit "XObject", ODict entries)]   (* src/content.rs:1250-1252 *)
  | Resources_fonts entries => [(lit "Font", ODict entries)]   (* src/content.rs:1260-1262 *)
  | Resources_color_spaces entries => [(lit "ColorSpace", ODict entries)]   (* src/content.rs:1268-1270 *)
  | Resources_patterns entries => [(lit "Pattern", ODict entries)]   (* src/content.rs:1277-1279 *)
  | Resources_shadings entries => [(lit "Shading", ODict entries)]   (* src/content.rs:1285-1287 *)
  | Resources_ext_g_states entries => [(lit "ExtGState", ODict entries)]   (* src/content.rs:1293-1295 *)
  | Resources_proc_sets sets => [(lit "ProcSet", arr_of (fun e => OPrim (PName (ProcSet_name e))) sets)]   (* src/content.rs:1302-1307 *)
  | Resources_proc_sets_all => [(lit "ProcSet", arr_of (fun e => OPrim (PName (ProcSet_name e))) [ProcSet_Pdf; ProcSet_Text; ProcSet_ImageGrayscale; ProcSet_ImageColor; ProcSet_ImageIndexed])]   (* src/content.rs:1314-1322 *)
  | Resources_properties items => [(lit "Properties", dict_of PropertyList_obj items)]   (* src/content.rs:1329-1331 *)
  end.
(** src/content.rs:1242: no entries. *)
Definition Resources_header : list (bytes * obj) := [].
Definition Resources_calls : Type := list (or_raw Resources_call).
Definition Resources_obj (cs : Resources_calls) : obj := dict_writer Resources_header Resources_entries cs.

(** ** SoftMask (src/content.rs) *)

Inductive SoftMask_call :=
| SoftMask_subtype (subtype : MaskType)
| SoftMask_group (group : Z)
| SoftMask_backdrop (color : list f32)
| SoftMask_transfer_function (function : Z).
Definition SoftMask_entries (c : SoftMask_call) : list (bytes * obj) :=
  match c with
  | SoftMask_subtype subtype => [(lit "S", OPrim (PName (MaskType_name subtype)))]   (* src/content.rs:1678-1681 *)
  | SoftMask_group group => [(lit "G", OPrim (PRef group))]   (* src/content.rs:1686-1689 *)
  | SoftMask_backdrop color => [(lit "BC", reals color)]   (* src/content.rs:1694-1697 *)
  | SoftMask_transfer_function function => [(lit "TR", OPrim (PRef function))]   (* src/content.rs:1701-1704 *)
  end.
(** src/content.rs:1670-1674. *)
Definition SoftMask_header : list (bytes * obj) := [(lit "Type", OPrim (PName (lit "Mask")))].
Definition SoftMask_calls : Type := list (or_raw SoftMask_call).
Definition SoftMask_obj (cs : SoftMask_calls) : obj := dict_writer SoftMask_header SoftMask_entries cs.

(** ** ExtGraphicsState (src/content.rs) *)

Inductive ExtGraphicsState_call :=
| ExtGraphicsState_line_width (width : f32)
| ExtGraphicsState_line_cap (cap : ModelContent.line_cap)
| ExtGraphicsState_line_join (join : ModelContent.line_join)
| ExtGraphicsState_miter_limit (limit : f32)
| ExtGraphicsState_dash_pattern (pattern : list f32) (phase : f32)
| ExtGraphicsState_rendering_intent (intent : ModelContent.rendering_intent)
| ExtGraphicsState_overprint (overprint : bool)
| ExtGraphicsState_overprint_fill (overprint : bool)
| ExtGraphicsState_overprint_mode (mode : OverprintMode)
| ExtGraphicsState_font (font : bytes) (size : f32)
| ExtGraphicsState_black_generation (func : Z)
| ExtGraphicsState_black_generation_default
| ExtGraphicsState_undercolor_removal (func : Z)
| ExtGraphicsState_undercolor_removal_default
| ExtGraphicsState_transfer (func : Z)
| ExtGraphicsState_transfer_default
| ExtGraphicsState_halftone (ht : Z)
| ExtGraphicsState_halftone_default
| ExtGraphicsState_flatness (tolerance : f32)
| ExtGraphicsState_smoothness (tolerance : f32)
| ExtGraphicsState_stroke_adjustment (adjust : bool)
| ExtGraphicsState_blend_mode (mode : BlendMode)
| ExtGraphicsState_soft_mask (calls : SoftMask_calls)
| ExtGraphicsState_soft_mask_name (mask : bytes)
| ExtGraphicsState_stroking_alpha (alpha : f32)
| ExtGraphicsState_non_stroking_alpha (alpha : f32)
| ExtGraphicsState_alpha_source (source : bool)
| ExtGraphicsState_text_knockout (knockout : bool).
Definition ExtGraphicsState_entries (c : ExtGraphicsState_call) : list (bytes * obj) :=
  match c with
  | ExtGraphicsState_line_width width => [(lit "LW", OPrim (PReal width))]   (* src/content.rs:1382-1385 *)
  | ExtGraphicsState_line_cap cap => [(lit "LC", OPrim (PInt (ModelContent.line_cap_int cap)))]   (* src/content.rs:1388-1391 *)
  | ExtGraphicsState_line_join join => [(lit "LJ", OPrim (PInt (ModelContent.line_join_int join)))]   (* src/content.rs:1394-1397 *)
  | ExtGraphicsState_miter_limit limit => [(lit "ML", OPrim (PReal limit))]   (* src/content.rs:1400-1403 *)
  | ExtGraphicsState_dash_pattern pattern phase => [(lit "D", OArray [reals pattern; OPrim (PReal phase)])]   (* src/content.rs:1406-1416 *)
  | ExtGraphicsState_rendering_intent intent => [(lit "RI", OPrim (PName (ModelContent.rendering_intent_name intent)))]   (* src/content.rs:1419-1422 *)
  | ExtGraphicsState_overprint overprint => [(lit "OP", OPrim (PBool overprint))]   (* src/content.rs:1427-1430 *)
  | ExtGraphicsState_overprint_fill overprint => [(lit "op", OPrim (PBool overprint))]   (* src/content.rs:1434-1437 *)
  | ExtGraphicsState_overprint_mode mode => [(lit "OPM", OPrim (PInt (OverprintMode_int mode)))]   (* src/content.rs:1443-1446 *)
  | ExtGraphicsState_font font size => [(lit "Font", OArray [OPrim (PName font); OPrim (PReal size)])]   (* src/content.rs:1449-1455 *)
  | ExtGraphicsState_black_generation func => [(lit "BG", OPrim (PRef func))]   (* src/content.rs:1458-1461 *)
  | ExtGraphicsState_black_generation_default => [(lit "BG2", OPrim (PName (lit "Default")))]   (* src/content.rs:1466-1469 *)
  | ExtGraphicsState_undercolor_removal func => [(lit "UCR", OPrim (PRef func))]   (* src/content.rs:1472-1475 *)
  | ExtGraphicsState_undercolor_removal_default => [(lit "UCR2", OPrim (PName (lit "Default")))]   (* src/content.rs:1480-1483 *)
  | ExtGraphicsState_transfer func => [(lit "TR", OPrim (PRef func))]   (* src/content.rs:1488-1491 *)
  | ExtGraphicsState_transfer_default => [(lit "TR2", OPrim (PName (lit "Default")))]   (* src/content.rs:1495-1498 *)
  | ExtGraphicsState_halftone ht => [(lit "HT", OPrim (PRef ht))]   (* src/content.rs:1503-1506 *)
  | ExtGraphicsState_halftone_default => [(lit "HT", OPrim (PName (lit "Default")))]   (* src/content.rs:1510-1513 *)
  | ExtGraphicsState_flatness tolerance => [(lit "FL", OPrim (PReal tolerance))]   (* src/content.rs:1518-1521 *)
  | ExtGraphicsState_smoothness tolerance => [(lit "SM", OPrim (PReal tolerance))]   (* src/content.rs:1524-1527 *)
  | ExtGraphicsState_stroke_adjustment adjust => [(lit "SA", OPrim (PBool adjust))]   (* src/content.rs:1530-1533 *)
  | ExtGraphicsState_blend_mode mode => [(lit "BM", OPrim (PName (BlendMode_name mode)))]   (* src/content.rs:1538-1541 *)
  | ExtGraphicsState_soft_mask calls => [(lit "SMask", SoftMask_obj calls)]   (* src/content.rs:1546-1548 *)
  | ExtGraphicsState_soft_mask_name mask => [(lit "SMask", OPrim (PName mask))]   (* src/content.rs:1553-1556 *)
  | ExtGraphicsState_stroking_alpha alpha => [(lit "CA", OPrim (PReal alpha))]   (* src/content.rs:1561-1564 *)
  | ExtGraphicsState_non_stroking_alpha alpha => [(lit "ca", OPrim (PReal alpha))]   (* src/content.rs:1570-1573 *)
  | ExtGraphicsState_alpha_source source => [(lit "AIS", OPrim (PBool source))]   (* src/content.rs:1578-1581 *)
  | ExtGraphicsState_text_knockout knockout => [(lit "TK", OPrim (PBool knockout))]   (* src/content.rs:1584-1587 *)
  end.
(** src/content.rs:1374-1378. *)
Definition ExtGraphicsState_header : list (bytes * obj) := [(lit "Type", OPrim (PName (lit "ExtGState")))].
Definition ExtGraphicsState_calls : Type := list (or_raw ExtGraphicsState_call).
Definition ExtGraphicsState_obj (cs : ExtGraphicsState_calls) : obj := dict_writer ExtGraphicsState_header ExtGraphicsState_entries cs.

(** ** TilingPattern (src/color.rs) *)

Inductive TilingPattern_call :=
| TilingPattern_paint_type (paint_type : PaintType)
| TilingPattern_tiling_type (tiling_type : TilingType)
| TilingPattern_bbox (bbox : rect)
| TilingPattern_x_step (x_step : f32)
| TilingPattern_y_step (y_step : f32)
| TilingPattern_resources (calls : Resources_calls)
| TilingPattern_matrix (matrix : f6).
Definition TilingPattern_entries (c : TilingPattern_call) : option (list (bytes * obj)) :=
  match c with
  | TilingPattern_paint_type paint_type => Some [(lit "PaintType", OPrim (PInt (PaintType_int paint_type)))]   (* src/color.rs:786-789 *)
  | TilingPattern_tiling_type tiling_type => Some [(lit "TilingType", OPrim (PInt (TilingType_int tiling_type)))]   (* src/color.rs:794-797 *)
  | TilingPattern_bbox bbox => Some [(lit "BBox", OPrim (PRect bbox))]   (* src/color.rs:803-806 *)
  | TilingPattern_x_step x_step => if f32_eqb x_step f32_zero then None else Some [(lit "XStep", OPrim (PReal x_step))]   (* src/color.rs:813-817 *)
  | TilingPattern_y_step y_step => if f32_eqb y_step f32_zero then None else Some [(lit "YStep", OPrim (PReal y_step))]   (* src/color.rs:824-828 *)
  | TilingPattern_resources calls => Some [(lit "Resources", Resources_obj calls)]   (* src/color.rs:833-835 *)
  | TilingPattern_matrix matrix => Some [(lit "Matrix", reals (l6 matrix))]   (* src/color.rs:841-844 *)
  end.
(** src/color.rs:777-781. *)
Definition TilingPattern_header : list (bytes * obj) := [(lit "Type", OPrim (PName (lit "Pattern"))); (lit "PatternType", OPrim (PInt 1))].
Definition TilingPattern_calls : Type := list (or_stream Stream_call TilingPattern_call).
Definition TilingPattern_dict (cs : TilingPattern_calls) : option (list (bytes * obj)) := stream_writer Stream_entries TilingPattern_header TilingPattern_entries cs.

(** ** FunctionShading (src/color.rs) *)

Inductive FunctionShading_call :=
| FunctionShading_shading_type (kind : FunctionShadingType)
| FunctionShading_color_space (x : cs)
| FunctionShading_background (background : list f32)
| FunctionShading_bbox (bbox : rect)
| FunctionShading_anti_alias (anti_alias : bool)
| FunctionShading_domain (domain : f4)
| FunctionShading_matrix (matrix : f6)
| FunctionShading_function (function : Z)
| FunctionShading_coords (coords : list f32)
| FunctionShading_extend (extend : bool * bool).
Definition FunctionShading_entries (c : FunctionShading_call) : option (list (bytes * obj)) :=
  match c with
  | FunctionShading_shading_type kind => Some [(lit "ShadingType", OPrim (PInt (FunctionShadingType_int kind)))]   (* src/color.rs:945-948 *)
  | FunctionShading_color_space x => sub_entry (lit "ColorSpace") (cs_obj x)   (* src/color.rs:954-956 *)
  | FunctionShading_background background => Some [(lit "Background", reals background)]   (* src/color.rs:963-966 *)
  | FunctionShading_bbox bbox => Some [(lit "BBox", OPrim (PRect bbox))]   (* src/color.rs:971-974 *)
  | FunctionShading_anti_alias anti_alias => Some [(lit "AntiAlias", OPrim (PBool anti_alias))]   (* src/color.rs:979-982 *)
  | FunctionShading_domain domain => Some [(lit "Domain", reals (l4 domain))]   (* src/color.rs:989-992 *)
  | FunctionShading_matrix matrix => Some [(lit "Matrix", reals (l6 matrix))]   (* src/color.rs:999-1002 *)
  | FunctionShading_function function => Some [(lit "Function", OPrim (PRef function))]   (* src/color.rs:1008-1011 *)
  | FunctionShading_coords coords => Some [(lit "Coords", reals coords)]   (* src/color.rs:1018-1021 *)
  | FunctionShading_extend extend => Some [(lit "Extend", bools [fst extend; snd extend])]   (* src/color.rs:1027-1030 *)
  end.
(** src/color.rs:938: no entries. *)
Definition FunctionShading_header : list (bytes * obj) := [].
Definition FunctionShading_calls : Type := list (or_raw FunctionShading_call).
Definition FunctionShading_obj (cs : FunctionShading_calls) : option obj := dict_writer_opt FunctionShading_header FunctionShading_entries cs.

(** ** ShadingPattern (src/color.rs) *)

Inductive ShadingPattern_call :=
| ShadingPattern_function_shading (calls : FunctionShading_calls)
| ShadingPattern_shading_ref (id : Z)
| ShadingPattern_matrix (matrix : f6)
| ShadingPattern_ext_graphics (calls : ExtGraphicsState_calls).
Definition ShadingPattern_entries (c : ShadingPattern_call) : option (list (bytes * obj)) :=
  match c with
  | ShadingPattern_function_shading calls => sub_entry (lit "Shading") (FunctionShading_obj calls)   (* src/color.rs:904-906 *)
  | ShadingPattern_shading_ref id => Some [(lit "Shading", OPrim (PRef id))]   (* src/color.rs:909-912 *)
  | ShadingPattern_matrix matrix => Some [(lit "Matrix", reals (l6 matrix))]   (* src/color.rs:917-920 *)
  | ShadingPattern_ext_graphics calls => Some [(lit "ExtGState", ExtGraphicsState_obj calls)]   (* src/color.rs:923-925 *)
  end.
(** src/color.rs:895-900. *)
Definition ShadingPattern_header : list (bytes * obj) := [(lit "Type", OPrim (PName (lit "Pattern"))); (lit "PatternType", OPrim (PInt 2))].
Definition ShadingPattern_calls : Type := list (or_raw ShadingPattern_call).
Definition ShadingPattern_obj (cs : ShadingPattern_calls) : option obj := dict_writer_opt ShadingPattern_header ShadingPattern_entries cs.

(** ** StreamShading (src/color.rs) *)

Inductive StreamShading_call :=
| StreamShading_shading_type (kind : StreamShadingType)
| StreamShading_color_space (x : cs)
| StreamShading_background (background : list f32)
| StreamShading_bbox (bbox : rect)
| StreamShading_anti_alias (anti_alias : bool)
| StreamShading_function (function : Z)
| StreamShading_bits_per_coordinate (bits : Z)
| StreamShading_bits_per_component (bits : Z)
| StreamShading_bits_per_flag (bits : Z)
| StreamShading_decode (decode : list f32)
| StreamShading_vertices_per_row (vertices : Z).
Definition StreamShading_entries (c : StreamShading_call) : option (list (bytes * obj)) :=
  match c with
  | StreamShading_shading_type kind => Some [(lit "ShadingType", OPrim (PInt (StreamShadingType_int kind)))]   (* src/color.rs:1052-1055 *)
  | StreamShading_color_space x => sub_entry (lit "ColorSpace") (cs_obj x)   (* src/color.rs:1061-1063 *)
  | StreamShading_background background => Some [(lit "Background", reals background)]   (* src/color.rs:1070-1073 *)
  | StreamShading_bbox bbox => Some [(lit "BBox", OPrim (PRect bbox))]   (* src/color.rs:1078-1081 *)
  | StreamShading_anti_alias anti_alias => Some [(lit "AntiAlias", OPrim (PBool anti_alias))]   (* src/color.rs:1086-1089 *)
  | StreamShading_function function => Some [(lit "Function", OPrim (PRef function))]   (* src/color.rs:1095-1098 *)
  | StreamShading_bits_per_coordinate bits => Some [(lit "BitsPerCoordinate", OPrim (PInt bits))]   (* src/color.rs:1104-1107 *)
  | StreamShading_bits_per_component bits => Some [(lit "BitsPerComponent", OPrim (PInt bits))]   (* src/color.rs:1113-1116 *)
  | StreamShading_bits_per_flag bits => Some [(lit "BitsPerFlag", OPrim (PInt bits))]   (* src/color.rs:1122-1125 *)
  | StreamShading_decode decode => Some [(lit "Decode", reals decode)]   (* src/color.rs:1130-1133 *)
  | StreamShading_vertices_per_row vertices => Some [(lit "VerticesPerRow", OPrim (PInt vertices))]   (* src/color.rs:1139-1142 *)
  end.
(** src/color.rs:1044-1046: no entries. *)
Definition StreamShading_header : list (bytes * obj) := [].
Definition StreamShading_calls : Type := list (or_stream Stream_call StreamShading_call).
Definition StreamShading_dict (cs : StreamShading_calls) : option (list (bytes * obj)) := stream_writer Stream_entries StreamShading_header StreamShading_entries cs.

(** ** SeparationInfo (src/color.rs) *)

Inductive SeparationInfo_call :=
| SeparationInfo_pages (pages : list Z)
| SeparationInfo_device_colorant (colorant : bytes)
| SeparationInfo_device_colorant_str (colorant : list Z)
| SeparationInfo_color_space (x : cs).
Definition SeparationInfo_entries (c : SeparationInfo_call) : option (list (bytes * obj)) :=
  match c with
  | SeparationInfo_pages pages => Some [(lit "Pages", refs pages)]   (* src/color.rs:1211-1214 *)
  | SeparationInfo_device_colorant colorant => Some [(lit "DeviceColorant", OPrim (PName colorant))]   (* src/color.rs:1219-1222 *)
  | SeparationInfo_device_colorant_str colorant => Some [(lit "DeviceColorant", OPrim (PText colorant))]   (* src/color.rs:1227-1230 *)
  | SeparationInfo_color_space x => sub_entry (lit "ColorSpace") (cs_obj x)   (* src/color.rs:1236-1238 *)
  end.
(** src/color.rs:1204: no entries. *)
Definition SeparationInfo_header : list (bytes * obj) := [].
Definition SeparationInfo_calls : Type := list SeparationInfo_call.
Definition SeparationInfo_obj (cs : SeparationInfo_calls) : option obj := dict_writer_opt SeparationInfo_header SeparationInfo_entries (map Typed cs).

(** ** OutputIntent (src/color.rs) *)

Inductive OutputIntent_call :=
| OutputIntent_subtype (subtype : OutputIntentSubtype)
| OutputIntent_output_condition (condition : textlike)
| OutputIntent_output_condition_identifier (identifier : textlike)
| OutputIntent_registry_name (name : list Z)
| OutputIntent_info (info : textlike)
| OutputIntent_dest_output_profile (profile : Z).
Definition OutputIntent_entries (c : OutputIntent_call) : list (bytes * obj) :=
  match c with
  | OutputIntent_subtype subtype => [(lit "S", OPrim (PName (OutputIntentSubtype_name subtype)))]   (* src/color.rs:1257-1260 *)
  | OutputIntent_output_condition condition => [(lit "OutputCondition", OPrim (text_prim condition))]   (* src/color.rs:1265-1268 *)
  | OutputIntent_output_condition_identifier identifier => [(lit "OutputConditionIdentifier", OPrim (text_prim identifier))]   (* src/color.rs:1273-1279 *)
  | OutputIntent_registry_name name => [(lit "RegistryName", OPrim (PText name))]   (* src/color.rs:1284-1287 *)
  | OutputIntent_info info => [(lit "Info", OPrim (text_prim info))]   (* src/color.rs:1292-1295 *)
  | OutputIntent_dest_output_profile profile => [(lit "DestOutputProfile", OPrim (PRef profile))]   (* src/color.rs:1304-1307 *)
  end.
(** src/color.rs:1249-1253. *)
Definition OutputIntent_header : list (bytes * obj) := [(lit "Type", OPrim (PName (lit "OutputIntent")))].
Definition OutputIntent_calls : Type := list OutputIntent_call.
Definition OutputIntent_obj (cs : OutputIntent_calls) : obj := dict_writer OutputIntent_header OutputIntent_entries (map Typed cs).

(** ** Group (src/xobject.rs) *)

Inductive Group_call :=
| Group_transparency
| Group_color_space (x : cs)
| Group_isolated (isolated : bool)
| Group_knockout (knockout : bool).
Definition Group_entries (c : Group_call) : option (list (bytes * obj)) :=
  match c with
  | Group_transparency => Some [(lit "S", OPrim (PName (lit "Transparency")))]   (* src/xobject.rs:299-302 *)
  | Group_color_space x => sub_entry (lit "CS") (cs_obj x)   (* src/xobject.rs:310-312 *)
  | Group_isolated isolated => Some [(lit "I", OPrim (PBool isolated))]   (* src/xobject.rs:319-322 *)
  | Group_knockout knockout => Some [(lit "K", OPrim (PBool knockout))]   (* src/xobject.rs:329-332 *)
  end.
(** src/xobject.rs:290-294. *)
Definition Group_header : list (bytes * obj) := [(lit "Type", OPrim (PName (lit "Group")))].
Definition Group_calls : Type := list (or_raw Group_call).
Definition Group_obj (cs : Group_calls) : option obj := dict_writer_opt Group_header Group_entries cs.
