(** Specification: the parameters of graphics state dictionaries, soft masks, patterns and shadings (ISO 32000-2, tables 57, 142, 74 to 83), as the resources of
    the pages name them. The functions, color spaces and drawings that they refer to are read by SpecColors; [Font], which is not written as the standard asks
    (C55_font_refuted), is left out. *)

From Coq Require Import ZArith List Bool.
From Verif Require ModelCmap ModelContent SpecContent SpecForm.
From Verif Require Import Bytes ModelFloat ModelBuf ModelObject ModelChunk ModelColor ModelSmall ModelPdf ModelTw ModelEnums ModelRoles ModelTwArgs
  ModelTwFiles ModelTwGraphics ModelTwAnnot ModelTwForms ModelTwAttr ModelTwXObj ModelTwFonts ModelTwDoc ModelFontDesc ModelDoc
  SpecLex SpecObj SpecText SpecMeans SpecRenum SpecChunk SpecFile SpecPdf SpecTyped SpecColor SpecSmall SpecTw SpecEnums SpecRoles SpecTwArgs
  SpecTwFiles SpecTwGraphics SpecTwAnnot SpecTwForms SpecTwAttr SpecTwXObj SpecTwFonts SpecTwDoc SpecFontDesc SpecDoc SpecPages SpecExtract SpecNav SpecViews SpecTagged SpecPaint SpecFunctions SpecActions SpecPresent SpecColors SpecImages SpecAppear SpecAttrs SpecFields SpecFaces.
Import ListNotations.
Local Open Scope Z_scope.

(** ** What is read *)
Record mask_parts (N : Type) := mkMaskParts { mt_kind : option MaskType; mt_backdrop : option (list N) }.
Arguments mkMaskParts {N}. Arguments mt_kind {N}. Arguments mt_backdrop {N}.
Inductive mask_of (N : Type) := NamedMask (n : bytes) | GroupMask (parts : mask_parts N).
Arguments NamedMask {N}. Arguments GroupMask {N}.
(** [st_halftone] is the number of the halftone, or [None] for the default one. *)
Record state_parts (N : Type) := mkStateParts { st_width : option N; st_cap : option ModelContent.line_cap; st_join : option ModelContent.line_join;
    st_miter : option N; st_dash : option (list N * N); st_intent : option ModelContent.rendering_intent; st_overprint : option bool; st_overprint_fill : option bool;
    st_overprint_mode : option OverprintMode; st_black : option bytes; st_undercolor : option bytes; st_transfer : option bytes; st_halftone : option (option Z);
    st_flatness : option N; st_smoothness : option N; st_adjust : option bool; st_blend : option BlendMode; st_mask : option (mask_of N); st_stroke_alpha : option N;
    st_fill_alpha : option N; st_alpha_shape : option bool; st_knockout : option bool }.
Arguments mkStateParts {N}. Arguments st_width {N}. Arguments st_cap {N}. Arguments st_join {N}. Arguments st_miter {N}. Arguments st_dash {N}.
    Arguments st_intent {N}. Arguments st_overprint {N}. Arguments st_overprint_fill {N}. Arguments st_overprint_mode {N}. Arguments st_black {N}.
    Arguments st_undercolor {N}. Arguments st_transfer {N}. Arguments st_halftone {N}. Arguments st_flatness {N}. Arguments st_smoothness {N}. Arguments st_adjust {N}.
    Arguments st_blend {N}. Arguments st_mask {N}. Arguments st_stroke_alpha {N}. Arguments st_fill_alpha {N}. Arguments st_alpha_shape {N}. Arguments st_knockout {N}.
Record tile_parts (N : Type) := mkTileParts { tt_paint : option PaintType; tt_spacing : option TilingType; tt_box : option (list N); tt_x : option N; tt_y : option N;
    tt_matrix : option (list N) }.
Arguments mkTileParts {N}. Arguments tt_paint {N}. Arguments tt_spacing {N}. Arguments tt_box {N}. Arguments tt_x {N}. Arguments tt_y {N}. Arguments tt_matrix {N}.
Record gradient_parts (N : Type) := mkGradientParts { gt_type : option FunctionShadingType; gt_background : option (list N); gt_box : option (list N);
    gt_anti : option bool; gt_domain : option (list N); gt_matrix : option (list N); gt_coords : option (list N); gt_extend : option (bool * bool) }.
Arguments mkGradientParts {N}. Arguments gt_type {N}. Arguments gt_background {N}. Arguments gt_box {N}. Arguments gt_anti {N}. Arguments gt_domain {N}.
    Arguments gt_matrix {N}. Arguments gt_coords {N}. Arguments gt_extend {N}.
Record mesh_parts (N : Type) := mkMeshParts { ht_type : option StreamShadingType; ht_background : option (list N); ht_box : option (list N); ht_anti : option bool;
    ht_coordinate : option Z; ht_component : option Z; ht_flag : option Z; ht_decode : option (list N); ht_row : option Z }.
Arguments mkMeshParts {N}. Arguments ht_type {N}. Arguments ht_background {N}. Arguments ht_box {N}. Arguments ht_anti {N}. Arguments ht_coordinate {N}.
    Arguments ht_component {N}. Arguments ht_flag {N}. Arguments ht_decode {N}. Arguments ht_row {N}.
Inductive shade (N : Type) := ByFunction (parts : gradient_parts N) | ByMesh (parts : mesh_parts N).
Arguments ByFunction {N}. Arguments ByMesh {N}.
Record shaded_parts (N : Type) := mkShadedParts { sw_matrix : option (list N); sw_shading : option (shade N); sw_state : option (state_parts N) }.
Arguments mkShadedParts {N}. Arguments sw_matrix {N}. Arguments sw_shading {N}. Arguments sw_state {N}.
Inductive pattern_of (N : Type) := Tiled (parts : tile_parts N) | Shaded (parts : shaded_parts N).
Arguments Tiled {N}. Arguments Shaded {N}.
Record named_states (N : Type) := mkNamedStates { ns_states : list (bytes * state_parts N); ns_shadings : list (bytes * shade N);
    ns_patterns : list (bytes * pattern_of N) }.
Arguments mkNamedStates {N}. Arguments ns_states {N}. Arguments ns_shadings {N}. Arguments ns_patterns {N}.

(** ** The reader *)
Definition read_dash (v : val) : option (list val * val) := match v with VArr [l; p] =>
    bind (read_numbers l) (fun l => option_map (pair l) (read_number p)) | _ => None end.
Definition read_halftone (v : val) : option (option Z) :=
  match v with VName n => if bytes_eqb n (lit "Default") then Some None else None | _ => option_map Some (read_id v) end.
Definition read_pair (v : val) : option (bool * bool) := match v with VArr [a; b] =>
    bind (read_boolean a) (fun a => option_map (pair a) (read_boolean b)) | _ => None end.
Section Reader.
  Variable decode : option val -> bytes -> option bytes.
  Variable resolved : Z -> option indirect.
  Definition read_mask_parts (v : val) : option (mask_parts val) :=
    bind (object_dict resolved v) (fun d =>
    bind (optional (lit "S") d (read_named MaskType_table)) (fun x0 => bind (optional (lit "BC") d read_numbers) (fun x1 =>
    Some (mkMaskParts x0 x1)))).
  Definition read_mask_of (v : val) : option (mask_of val) := match v with VName n => Some (NamedMask n) | _ => option_map GroupMask (read_mask_parts v) end.
  Definition read_state_parts (v : val) : option (state_parts val) :=
    bind (object_dict resolved v) (fun d =>
    bind (optional (lit "LW") d read_number) (fun x0 => bind (optional (lit "LC") d (read_numbered LineCapStyle_table)) (fun x1 =>
    bind (optional (lit "LJ") d (read_numbered LineJoinStyle_table)) (fun x2 => bind (optional (lit "ML") d read_number) (fun x3 =>
    bind (optional (lit "D") d read_dash) (fun x4 => bind (optional (lit "RI") d (read_named RenderingIntent_table)) (fun x5 =>
    bind (optional (lit "OP") d read_boolean) (fun x6 => bind (optional (lit "op") d read_boolean) (fun x7 =>
    bind (optional (lit "OPM") d (read_numbered OverprintMode_table)) (fun x8 => bind (optional (lit "BG2") d read_name) (fun x9 =>
    bind (optional (lit "UCR2") d read_name) (fun x10 => bind (optional (lit "TR2") d read_name) (fun x11 => bind (optional (lit "HT") d read_halftone) (fun x12 =>
    bind (optional (lit "FL") d read_number) (fun x13 => bind (optional (lit "SM") d read_number) (fun x14 => bind (optional (lit "SA") d read_boolean) (fun x15 =>
    bind (optional (lit "BM") d (read_named BlendMode_table)) (fun x16 => bind (optional (lit "SMask") d read_mask_of) (fun x17 =>
    bind (optional (lit "CA") d read_number) (fun x18 => bind (optional (lit "ca") d read_number) (fun x19 => bind (optional (lit "AIS") d read_boolean) (fun x20 =>
    bind (optional (lit "TK") d read_boolean) (fun x21 =>
    Some (mkStateParts x0 x1 x2 x3 x4 x5 x6 x7 x8 x9 x10 x11 x12 x13 x14 x15 x16 x17 x18 x19 x20 x21)))))))))))))))))))))))).
  Definition read_tile_parts (v : val) : option (tile_parts val) :=
    bind (object_dict resolved v) (fun d =>
    bind (optional (lit "PaintType") d (read_numbered PaintType_table)) (fun x0 => bind (optional (lit "TilingType") d (read_numbered TilingType_table)) (fun x1 =>
    bind (optional (lit "BBox") d read_numbers) (fun x2 => bind (optional (lit "XStep") d read_number) (fun x3 =>
    bind (optional (lit "YStep") d read_number) (fun x4 => bind (optional (lit "Matrix") d read_numbers) (fun x5 =>
    Some (mkTileParts x0 x1 x2 x3 x4 x5)))))))).
  Definition read_gradient_parts (v : val) : option (gradient_parts val) :=
    bind (object_dict resolved v) (fun d =>
    bind (optional (lit "ShadingType") d (read_numbered FunctionShadingType_table)) (fun x0 => bind (optional (lit "Background") d read_numbers) (fun x1 =>
    bind (optional (lit "BBox") d read_numbers) (fun x2 => bind (optional (lit "AntiAlias") d read_boolean) (fun x3 =>
    bind (optional (lit "Domain") d read_numbers) (fun x4 => bind (optional (lit "Matrix") d read_numbers) (fun x5 =>
    bind (optional (lit "Coords") d read_numbers) (fun x6 => bind (optional (lit "Extend") d read_pair) (fun x7 =>
    Some (mkGradientParts x0 x1 x2 x3 x4 x5 x6 x7)))))))))).
  Definition read_mesh_parts (v : val) : option (mesh_parts val) :=
    bind (object_dict resolved v) (fun d =>
    bind (optional (lit "ShadingType") d (read_numbered StreamShadingType_table)) (fun x0 => bind (optional (lit "Background") d read_numbers) (fun x1 =>
    bind (optional (lit "BBox") d read_numbers) (fun x2 => bind (optional (lit "AntiAlias") d read_boolean) (fun x3 =>
    bind (optional (lit "BitsPerCoordinate") d read_int) (fun x4 => bind (optional (lit "BitsPerComponent") d read_int) (fun x5 =>
    bind (optional (lit "BitsPerFlag") d read_int) (fun x6 => bind (optional (lit "Decode") d read_numbers) (fun x7 =>
    bind (optional (lit "VerticesPerRow") d read_int) (fun x8 =>
    Some (mkMeshParts x0 x1 x2 x3 x4 x5 x6 x7 x8))))))))))).
  (** Shadings of types 1 to 3 are dictionaries, those of types 4 to 7 are streams. *)
  Definition read_shade (v : val) : option (shade val) :=
    bind (dict_or_stream decode resolved v) (fun x =>
    match snd x with None => option_map ByFunction (read_gradient_parts (VDict (fst x))) | Some _ => option_map ByMesh (read_mesh_parts (VDict (fst x))) end).
  Definition read_shaded_parts (v : val) : option (shaded_parts val) :=
    bind (object_dict resolved v) (fun d =>
    bind (optional (lit "Matrix") d read_numbers) (fun x0 => bind (optional (lit "Shading") d read_shade) (fun x1 =>
    bind (optional (lit "ExtGState") d read_state_parts) (fun x2 =>
    Some (mkShadedParts x0 x1 x2))))).
  Definition read_pattern_of (v : val) : option (pattern_of val) :=
    bind (dict_or_stream decode resolved v) (fun x =>
    required (lit "PatternType") (fst x) (fun t => bind (read_whole t) (fun t =>
    if t =? 1 then option_map Tiled (read_tile_parts (VDict (fst x))) else if t =? 2 then option_map Shaded (read_shaded_parts (VDict (fst x))) else None))).
  Definition read_named_states (res : val) : option (named_states val) :=
    bind (named_in (lit "ExtGState") read_state_parts res) (fun states => bind (named_in (lit "Shading") read_shade res) (fun shadings =>
    bind (named_in (lit "Pattern") read_pattern_of res) (fun patterns => Some (mkNamedStates states shadings patterns)))).
End Reader.
(** For every page. *)
Definition read_page_states decode (depth : nat) (file : bytes) : option (list (named_states val)) :=
  bind (document_views decode depth file) (fun views => SpecNav.all_of (map (fun v => read_named_states decode (resolve decode file) (snd (fst v))) views)).

(** ** The program *)
Definition quad_list (m : f4) (l : list f32) : Prop := l = in_order4 m.
Section Written.
  Variables (decode : option val -> bytes -> option bytes) (ops : list doc_op).
  Definition mask_parts_written (calls : SoftMask_calls) (x : (mask_parts f32)) : Prop :=
    called (lit "S") <| SoftMask_subtype x => x |> calls (mt_kind x) /\
    called (lit "BC") <| SoftMask_backdrop x => x |> calls (mt_backdrop x).
  Definition mask_of_written (m : bytes + SoftMask_calls) (x : mask_of f32) : Prop :=
    match m, x with inl n, NamedMask n' => n' = n | inr calls, GroupMask p => mask_parts_written calls p | _, _ => False end.
  Definition state_parts_written (calls : ExtGraphicsState_calls) (x : (state_parts f32)) : Prop :=
    called (lit "LW") <| ExtGraphicsState_line_width x => x |> calls (st_width x) /\
    called (lit "LC") <| ExtGraphicsState_line_cap x => x |> calls (st_cap x) /\
    called (lit "LJ") <| ExtGraphicsState_line_join x => x |> calls (st_join x) /\
    called (lit "ML") <| ExtGraphicsState_miter_limit x => x |> calls (st_miter x) /\
    called (lit "D") <| ExtGraphicsState_dash_pattern l p => (l, p) |> calls (st_dash x) /\
    called (lit "RI") <| ExtGraphicsState_rendering_intent x => x |> calls (st_intent x) /\
    called (lit "OP") <| ExtGraphicsState_overprint x => x |> calls (st_overprint x) /\
    called (lit "op") <| ExtGraphicsState_overprint_fill x => x |> calls (st_overprint_fill x) /\
    called (lit "OPM") <| ExtGraphicsState_overprint_mode x => x |> calls (st_overprint_mode x) /\
    called (lit "BG2") <| ExtGraphicsState_black_generation_default => lit "Default" |> calls (st_black x) /\
    called (lit "UCR2") <| ExtGraphicsState_undercolor_removal_default => lit "Default" |> calls (st_undercolor x) /\
    called (lit "TR2") <| ExtGraphicsState_transfer_default => lit "Default" |> calls (st_transfer x) /\
    called (lit "HT") (fun c => match c with ExtGraphicsState_halftone x => [inl (Some x)] | ExtGraphicsState_halftone_default => [inl None] | _ => [] end) calls (st_halftone x) /\
    called (lit "FL") <| ExtGraphicsState_flatness x => x |> calls (st_flatness x) /\
    called (lit "SM") <| ExtGraphicsState_smoothness x => x |> calls (st_smoothness x) /\
    called (lit "SA") <| ExtGraphicsState_stroke_adjustment x => x |> calls (st_adjust x) /\
    called (lit "BM") <| ExtGraphicsState_blend_mode x => x |> calls (st_blend x) /\
    part_given (called (lit "SMask") (fun c => match c with ExtGraphicsState_soft_mask x => [inl (inr x)] | ExtGraphicsState_soft_mask_name x => [inl (inl x)] | _ => [] end) calls) mask_of_written (st_mask x) /\
    called (lit "CA") <| ExtGraphicsState_stroking_alpha x => x |> calls (st_stroke_alpha x) /\
    called (lit "ca") <| ExtGraphicsState_non_stroking_alpha x => x |> calls (st_fill_alpha x) /\
    called (lit "AIS") <| ExtGraphicsState_alpha_source x => x |> calls (st_alpha_shape x) /\
    called (lit "TK") <| ExtGraphicsState_text_knockout x => x |> calls (st_knockout x).
  Definition tile_parts_written (calls : TilingPattern_calls) (x : (tile_parts f32)) : Prop :=
    stream_called (lit "PaintType") (fun _ => []) <| TilingPattern_paint_type x => x |> calls (tt_paint x) /\
    stream_called (lit "TilingType") (fun _ => []) <| TilingPattern_tiling_type x => x |> calls (tt_spacing x) /\
    part_given (stream_called (lit "BBox") (fun _ => []) <| TilingPattern_bbox x => x |> calls) rect_list (tt_box x) /\
    stream_called (lit "XStep") (fun _ => []) <| TilingPattern_x_step x => x |> calls (tt_x x) /\
    stream_called (lit "YStep") (fun _ => []) <| TilingPattern_y_step x => x |> calls (tt_y x) /\
    part_given (stream_called (lit "Matrix") (fun _ => []) <| TilingPattern_matrix x => x |> calls) matrix_list (tt_matrix x).
  Definition gradient_parts_written (calls : FunctionShading_calls) (x : (gradient_parts f32)) : Prop :=
    called (lit "ShadingType") <| FunctionShading_shading_type x => x |> calls (gt_type x) /\
    called (lit "Background") <| FunctionShading_background x => x |> calls (gt_background x) /\
    part_given (called (lit "BBox") <| FunctionShading_bbox x => x |> calls) rect_list (gt_box x) /\
    called (lit "AntiAlias") <| FunctionShading_anti_alias x => x |> calls (gt_anti x) /\
    part_given (called (lit "Domain") <| FunctionShading_domain x => x |> calls) quad_list (gt_domain x) /\
    part_given (called (lit "Matrix") <| FunctionShading_matrix x => x |> calls) matrix_list (gt_matrix x) /\
    called (lit "Coords") <| FunctionShading_coords x => x |> calls (gt_coords x) /\
    called (lit "Extend") <| FunctionShading_extend x => x |> calls (gt_extend x).
  Definition mesh_parts_written (calls : StreamShading_calls) (x : (mesh_parts f32)) : Prop :=
    stream_called (lit "ShadingType") (fun _ => []) <| StreamShading_shading_type x => x |> calls (ht_type x) /\
    stream_called (lit "Background") (fun _ => []) <| StreamShading_background x => x |> calls (ht_background x) /\
    part_given (stream_called (lit "BBox") (fun _ => []) <| StreamShading_bbox x => x |> calls) rect_list (ht_box x) /\
    stream_called (lit "AntiAlias") (fun _ => []) <| StreamShading_anti_alias x => x |> calls (ht_anti x) /\
    stream_called (lit "BitsPerCoordinate") (fun _ => []) <| StreamShading_bits_per_coordinate x => x |> calls (ht_coordinate x) /\
    stream_called (lit "BitsPerComponent") (fun _ => []) <| StreamShading_bits_per_component x => x |> calls (ht_component x) /\
    stream_called (lit "BitsPerFlag") (fun _ => []) <| StreamShading_bits_per_flag x => x |> calls (ht_flag x) /\
    stream_called (lit "Decode") (fun _ => []) <| StreamShading_decode x => x |> calls (ht_decode x) /\
    stream_called (lit "VerticesPerRow") (fun _ => []) <| StreamShading_vertices_per_row x => x |> calls (ht_row x).
  (** A shading that is an object of its own. *)
  Definition shade_by_id (id : Z) (x : shade f32) : Prop :=
    match x with
    | ByFunction p => exists calls, In (DocTyped id (Ck_function_shading calls)) ops /\ gradient_parts_written calls p
    | ByMesh p => exists data calls content, In (DocTyped id (Ck_stream_shading data calls)) ops /\ stored_with decode calls data content /\ mesh_parts_written calls p
    end.
  Definition shade_written (s : FunctionShading_calls + Z) (x : shade f32) : Prop :=
    match s, x with inl calls, ByFunction p => gradient_parts_written calls p | inl _, ByMesh _ => False | inr id, _ => shade_by_id id x end.
  Definition shaded_parts_written (calls : ShadingPattern_calls) (x : (shaded_parts f32)) : Prop :=
    part_given (called (lit "Matrix") <| ShadingPattern_matrix x => x |> calls) matrix_list (sw_matrix x) /\
    part_given (called (lit "Shading") (fun c => match c with ShadingPattern_function_shading x => [inl (inl x)] | ShadingPattern_shading_ref x => [inl (inr x)] | _ => [] end) calls) (shade_written) (sw_shading x) /\
    part_given (called (lit "ExtGState") <| ShadingPattern_ext_graphics x => x |> calls) state_parts_written (sw_state x).
  (** In the resources, by reference or in place. *)
  Definition state_in (o : obj) (x : state_parts f32) : Prop :=
    exists calls, state_parts_written calls x /\
      ((exists id, o = OPrim (PRef id) /\ In (DocTyped id (Ck_ext_graphics calls)) ops) \/ (o = ExtGraphicsState_obj calls /\ ExtGraphicsState_ok calls = true)).
  Definition shade_in (o : obj) (x : shade f32) : Prop :=
    (exists id, o = OPrim (PRef id) /\ shade_by_id id x) \/
    match x with ByFunction p => exists calls, FunctionShading_obj calls = Some o /\ FunctionShading_ok calls = true /\
    gradient_parts_written calls p | ByMesh _ => False end.
  Definition pattern_in (o : obj) (x : pattern_of f32) : Prop :=
    match x with
    | Tiled p => exists id data calls content, o = OPrim (PRef id) /\ In (DocTyped id (Ck_tiling_pattern data calls)) ops /\ stored_with decode calls data content /\
    tile_parts_written calls p
    | Shaded p => exists calls, shaded_parts_written calls p /\
        ((exists id, o = OPrim (PRef id) /\ In (DocTyped id (Ck_shading_pattern calls)) ops) \/ (ShadingPattern_obj calls = Some o /\ ShadingPattern_ok calls = true))
    end.
  Definition named_states_written (res : Resources_calls) (x : named_states f32) : Prop :=
    category_written (called (lit "ExtGState") <| Resources_ext_g_states es => es |> res) state_in (ns_states x) /\
    category_written (called (lit "Shading") <| Resources_shadings es => es |> res) shade_in (ns_shadings x) /\
    category_written (called (lit "Pattern") <| Resources_patterns es => es |> res) pattern_in (ns_patterns x).
End Written.

(** ** What is read is what was asked for *)
Definition dash_is (x : list f32 * f32) (r : list val * val) : Prop := numbers_are (fst x) (fst r) /\ is_real (snd x) (snd r).
Definition mask_parts_is (x : (mask_parts f32)) (r : (mask_parts val)) : Prop :=
  mt_kind r = mt_kind x /\ optionally numbers_are (mt_backdrop x) (mt_backdrop r).
Definition mask_of_is (x : mask_of f32) (r : mask_of val) : Prop :=
  match x, r with NamedMask n, NamedMask n' => n' = n | GroupMask p, GroupMask p' => mask_parts_is p p' | _, _ => False end.
Definition state_parts_is (x : (state_parts f32)) (r : (state_parts val)) : Prop :=
  optionally is_real (st_width x) (st_width r) /\ st_cap r = st_cap x /\ st_join r = st_join x /\ optionally is_real (st_miter x) (st_miter r) /\
    optionally dash_is (st_dash x) (st_dash r) /\ st_intent r = st_intent x /\ st_overprint r = st_overprint x /\ st_overprint_fill r = st_overprint_fill x /\
    st_overprint_mode r = st_overprint_mode x /\ st_black r = st_black x /\ st_undercolor r = st_undercolor x /\ st_transfer r = st_transfer x /\
    st_halftone r = st_halftone x /\ optionally is_real (st_flatness x) (st_flatness r) /\ optionally is_real (st_smoothness x) (st_smoothness r) /\
    st_adjust r = st_adjust x /\ st_blend r = st_blend x /\ optionally mask_of_is (st_mask x) (st_mask r) /\
    optionally is_real (st_stroke_alpha x) (st_stroke_alpha r) /\ optionally is_real (st_fill_alpha x) (st_fill_alpha r) /\ st_alpha_shape r = st_alpha_shape x /\
    st_knockout r = st_knockout x.
Definition tile_parts_is (x : (tile_parts f32)) (r : (tile_parts val)) : Prop :=
  tt_paint r = tt_paint x /\ tt_spacing r = tt_spacing x /\ optionally numbers_are (tt_box x) (tt_box r) /\ optionally is_real (tt_x x) (tt_x r) /\
    optionally is_real (tt_y x) (tt_y r) /\ optionally numbers_are (tt_matrix x) (tt_matrix r).
Definition gradient_parts_is (x : (gradient_parts f32)) (r : (gradient_parts val)) : Prop :=
  gt_type r = gt_type x /\ optionally numbers_are (gt_background x) (gt_background r) /\ optionally numbers_are (gt_box x) (gt_box r) /\ gt_anti r = gt_anti x /\
    optionally numbers_are (gt_domain x) (gt_domain r) /\ optionally numbers_are (gt_matrix x) (gt_matrix r) /\ optionally numbers_are (gt_coords x) (gt_coords r) /\
    gt_extend r = gt_extend x.
Definition mesh_parts_is (x : (mesh_parts f32)) (r : (mesh_parts val)) : Prop :=
  ht_type r = ht_type x /\ optionally numbers_are (ht_background x) (ht_background r) /\ optionally numbers_are (ht_box x) (ht_box r) /\ ht_anti r = ht_anti x /\
    ht_coordinate r = ht_coordinate x /\ ht_component r = ht_component x /\ ht_flag r = ht_flag x /\ optionally numbers_are (ht_decode x) (ht_decode r) /\
    ht_row r = ht_row x.
Definition shade_is (x : shade f32) (r : shade val) : Prop :=
  match x, r with ByFunction p, ByFunction p' => gradient_parts_is p p' | ByMesh p, ByMesh p' => mesh_parts_is p p' | _, _ => False end.
Definition shaded_parts_is (x : (shaded_parts f32)) (r : (shaded_parts val)) : Prop :=
  optionally numbers_are (sw_matrix x) (sw_matrix r) /\ optionally shade_is (sw_shading x) (sw_shading r) /\ optionally state_parts_is (sw_state x) (sw_state r).
Definition pattern_of_is (x : pattern_of f32) (r : pattern_of val) : Prop :=
  match x, r with Tiled p, Tiled p' => tile_parts_is p p' | Shaded p, Shaded p' => shaded_parts_is p p' | _, _ => False end.
Definition named_states_are (x : named_states f32) (r : named_states val) : Prop :=
  named_are state_parts_is (ns_states x) (ns_states r) /\ named_are shade_is (ns_shadings x) (ns_shadings r) /\ named_are pattern_of_is (ns_patterns x) (ns_patterns r).
