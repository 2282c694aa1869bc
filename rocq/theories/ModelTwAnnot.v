(** Model of typed writers: annotations, actions, renditions and destinations.  Generated by gen/gen_writers.py from the source text. *)

From Coq Require Import ZArith List Bool.
From Verif Require ModelContent ModelCmap.
From Verif Require Import Bytes ModelFloat ModelBuf ModelObject ModelColor ModelSmall ModelPdf ModelTw ModelEnums ModelRoles ModelTwArgs ModelTwFiles ModelTwGraphics.
Import ListNotations.
Local Open Scope Z_scope.

(** ** Destination (src/structure.rs) *)

Inductive Destination_call :=
| Destination_page (page : Z)
| Destination_xyz (left_ : f32) (top : f32) (zoom : option f32)
| Destination_fit
| Destination_fit_horizontal (top : f32)
| Destination_fit_vertical (left_ : f32)
| Destination_fit_rect (rect : rect)
| Destination_fit_bounding_box
| Destination_fit_bounding_box_horizontal (top : f32)
| Destination_fit_bounding_box_vertical (left_ : f32).
Definition Destination_items (c : Destination_call) : list obj :=
  match c with
  | Destination_page page => [OPrim (PRef page)]   (* src/structure.rs:2288-2291 *)
  | Destination_xyz left_ top zoom => [OPrim (PName (lit "XYZ")); OPrim (PReal left_); OPrim (PReal top); OPrim (PReal (match zoom with Some z => z | None => f32_zero end))]   (* src/structure.rs:2294-2299 *)
  | Destination_fit => [OPrim (PName (lit "Fit"))]   (* src/structure.rs:2303-2305 *)
  | Destination_fit_horizontal top => [OPrim (PName (lit "FitH")); OPrim (PReal top)]   (* src/structure.rs:2309-2312 *)
  | Destination_fit_vertical left_ => [OPrim (PName (lit "FitV")); OPrim (PReal left_)]   (* src/structure.rs:2316-2319 *)
  | Destination_fit_rect rect => [OPrim (PName (lit "FitR")); OPrim (PReal (x1 rect)); OPrim (PReal (y1 rect)); OPrim (PReal (x2 rect)); OPrim (PReal (y2 rect))]   (* src/structure.rs:2323-2326 *)
  | Destination_fit_bounding_box => [OPrim (PName (lit "FitB"))]   (* src/structure.rs:2330-2332 *)
  | Destination_fit_bounding_box_horizontal top => [OPrim (PName (lit "FitBH")); OPrim (PReal top)]   (* src/structure.rs:2336-2339 *)
  | Destination_fit_bounding_box_vertical left_ => [OPrim (PName (lit "FitBV")); OPrim (PReal left_)]   (* src/structure.rs:2343-2346 *)
  end.
Definition Destination_calls : Type := list (or_item Destination_call).
Definition Destination_obj (cs : Destination_calls) : obj := array_writer Destination_items cs.

(** ** Fields (src/actions.rs) *)

Inductive Fields_call :=
| Fields_id (id : Z)
| Fields_ids (ids : list Z)
| Fields_name (name : list Z)
| Fields_names (names_ : list (list Z)).
Definition Fields_items (c : Fields_call) : list obj :=
  match c with
  | Fields_id id => [OPrim (PRef id)]   (* src/actions.rs:152-155 *)
  | Fields_ids ids => map (fun r => OPrim (PRef r)) ids   (* src/actions.rs:158-161 *)
  | Fields_name name => [OPrim (PText name)]   (* src/actions.rs:164-167 *)
  | Fields_names names_ => map (fun t => OPrim (PText t)) names_   (* src/actions.rs:170-176 *)
  end.
Definition Fields_calls : Type := list (or_item Fields_call).
Definition Fields_obj (cs : Fields_calls) : obj := array_writer Fields_items cs.

(** ** MediaPermissions (src/renditions.rs) *)

Inductive MediaPermissions_call :=
| MediaPermissions_temp_file (tf : TempFileType).
Definition MediaPermissions_entries (c : MediaPermissions_call) : list (bytes * obj) :=
  match c with
  | MediaPermissions_temp_file tf => [(lit "TF", OPrim (PStr (TempFileType_str tf)))]   (* src/renditions.rs:167-170 *)
  end.
(** src/renditions.rs:159-163. *)
Definition MediaPermissions_header : list (bytes * obj) := [(lit "Type", OPrim (PName (lit "MediaPermissions")))].
Definition MediaPermissions_calls : Type := list (or_raw MediaPermissions_call).
Definition MediaPermissions_obj (cs : MediaPermissions_calls) : obj := dict_writer MediaPermissions_header MediaPermissions_entries cs.

(** ** MediaPlayParams (src/renditions.rs) *)

Inductive MediaPlayParams_call :=
| MediaPlayParams_controls (c : bool).
Definition MediaPlayParams_entries (c : MediaPlayParams_call) : list (bytes * obj) :=
  match c with
  | MediaPlayParams_controls c => [(lit "BE", ODict [(lit "C", OPrim (PBool c))])]   (* src/renditions.rs:144-147 *)
  end.
(** src/renditions.rs:131-135. *)
Definition MediaPlayParams_header : list (bytes * obj) := [(lit "Type", OPrim (PName (lit "MediaPlayParams")))].
Definition MediaPlayParams_calls : Type := list (or_raw MediaPlayParams_call).
Definition MediaPlayParams_obj (cs : MediaPlayParams_calls) : obj := dict_writer MediaPlayParams_header MediaPlayParams_entries cs.

(** ** MediaClip (src/renditions.rs) *)

Inductive MediaClip_call :=
| MediaClip_subtype (kind : MediaClipType)
| MediaClip_name (text : textlike)
| MediaClip_data (calls : FileSpec_calls)
| MediaClip_data_type (tf : bytes)
| MediaClip_permissions (calls : MediaPermissions_calls)
| MediaClip_alt_texts (texts : list (list Z)).
Definition MediaClip_entries (c : MediaClip_call) : list (bytes * obj) :=
  match c with
  | MediaClip_subtype kind => [(lit "S", OPrim (PName (MediaClipType_name kind)))]   (* src/renditions.rs:81-84 *)
  | MediaClip_name text => [(lit "N", OPrim (text_prim text))]   (* src/renditions.rs:88-91 *)
  | MediaClip_data calls => [(lit "D", FileSpec_obj calls)]   (* src/renditions.rs:94-96 *)
  | MediaClip_data_type tf => [(lit "CT", OPrim (PStr tf))]   (* src/renditions.rs:100-103 *)
  | MediaClip_permissions calls => [(lit "P", MediaPermissions_obj calls)]   (* src/renditions.rs:106-108 *)
  | MediaClip_alt_texts texts => [(lit "Alt", arr_of (fun t => OPrim (PText t)) texts)]   (* src/renditions.rs:113-119 *)
  end.
(** src/renditions.rs:73-77. *)
Definition MediaClip_header : list (bytes * obj) := [(lit "Type", OPrim (PName (lit "MediaClip")))].
Definition MediaClip_calls : Type := list (or_raw MediaClip_call).
Definition MediaClip_obj (cs : MediaClip_calls) : obj := dict_writer MediaClip_header MediaClip_entries cs.

(** ** Rendition (src/renditions.rs) *)

Inductive Rendition_call :=
| Rendition_subtype (kind : RenditionType)
| Rendition_name (text : textlike)
| Rendition_media_clip (calls : MediaClip_calls)
| Rendition_media_play_params (calls : MediaPlayParams_calls).
Definition Rendition_entries (c : Rendition_call) : list (bytes * obj) :=
  match c with
  | Rendition_subtype kind => [(lit "S", OPrim (PName (RenditionType_name kind)))]   (* src/renditions.rs:19-22 *)
  | Rendition_name text => [(lit "N", OPrim (text_prim text))]   (* src/renditions.rs:26-29 *)
  | Rendition_media_clip calls => [(lit "C", MediaClip_obj calls)]   (* src/renditions.rs:33-35 *)
  | Rendition_media_play_params calls => [(lit "P", MediaPlayParams_obj calls)]   (* src/renditions.rs:40-42 *)
  end.
(** src/renditions.rs:11-15. *)
Definition Rendition_header : list (bytes * obj) := [(lit "Type", OPrim (PName (lit "Rendition")))].
Definition Rendition_calls : Type := list (or_raw Rendition_call).
Definition Rendition_obj (cs : Rendition_calls) : obj := dict_writer Rendition_header Rendition_entries cs.

(** ** Action (src/actions.rs) *)

Inductive Action_call :=
| Action_action_type (kind : ActionType)
| Action_destination (calls : Destination_calls)
| Action_destination_named (name : bytes)
| Action_file_spec (calls : FileSpec_calls)
| Action_new_window (new : bool)
| Action_uri (uri : bytes)
| Action_is_map (map_ : bool)
| Action_js_string (script : list Z)
| Action_js_stream (script : Z)
| Action_fields (calls : Fields_calls)
| Action_form_flags (flags : list FormActionFlags)
| Action_operation (op : RenditionOperation)
| Action_annotation (id : Z)
| Action_rendition (calls : Rendition_calls).
Definition Action_entries (c : Action_call) : list (bytes * obj) :=
  match c with
  | Action_action_type kind => [(lit "S", OPrim (PName (ActionType_name kind)))]   (* src/actions.rs:19-22 *)
  | Action_destination calls => [(lit "D", Destination_obj calls)]   (* src/actions.rs:26-28 *)
  | Action_destination_named name => [(lit "D", OPrim (PName name))]   (* src/actions.rs:32-35 *)
  | Action_file_spec calls => [(lit "F", FileSpec_obj calls)]   (* src/actions.rs:43-45 *)
  | Action_new_window new => [(lit "NewWindow", OPrim (PBool new))]   (* src/actions.rs:49-52 *)
  | Action_uri uri => [(lit "URI", OPrim (PStr uri))]   (* src/actions.rs:55-58 *)
  | Action_is_map map_ => [(lit "IsMap", OPrim (PBool map_))]   (* src/actions.rs:63-66 *)
  | Action_js_string script => [(lit "JS", OPrim (PText script))]   (* src/actions.rs:70-73 *)
  | Action_js_stream script => [(lit "JS", OPrim (PRef script))]   (* src/actions.rs:80-83 *)
  | Action_fields calls => [(lit "Fields", Fields_obj calls)]   (* src/actions.rs:88-90 *)
  | Action_form_flags flags => [(lit "Flags", OPrim (PInt (flags_bits FormActionFlags_bit flags)))]   (* src/actions.rs:94-97 *)
  | Action_operation op => [(lit "OP", OPrim (PInt (RenditionOperation_int op)))]   (* src/actions.rs:101-104 *)
  | Action_annotation id => [(lit "AN", OPrim (PRef id))]   (* src/actions.rs:108-111 *)
  | Action_rendition calls => [(lit "R", Rendition_obj calls)]   (* src/actions.rs:115-117 *)
  end.
(** src/actions.rs:11-15. *)
Definition Action_header : list (bytes * obj) := [(lit "Type", OPrim (PName (lit "Action")))].
Definition Action_calls : Type := list (or_raw Action_call).
Definition Action_obj (cs : Action_calls) : obj := dict_writer Action_header Action_entries cs.

(** ** AdditionalActions (src/actions.rs) *)

Inductive AdditionalActions_call :=
| AdditionalActions_annot_curser_enter (calls : Action_calls)
| AdditionalActions_annot_cursor_exit (calls : Action_calls)
| AdditionalActions_annot_mouse_press (calls : Action_calls)
| AdditionalActions_annot_mouse_release (calls : Action_calls)
| AdditionalActions_annot_page_open (calls : Action_calls)
| AdditionalActions_annot_page_close (calls : Action_calls)
| AdditionalActions_annot_page_visible (calls : Action_calls)
| AdditionalActions_annot_page_invisible (calls : Action_calls)
| AdditionalActions_widget_focus (calls : Action_calls)
| AdditionalActions_widget_focus_loss (calls : Action_calls)
| AdditionalActions_page_open (calls : Action_calls)
| AdditionalActions_page_close (calls : Action_calls)
| AdditionalActions_form_calculate_partial (calls : Action_calls)
| AdditionalActions_form_format (calls : Action_calls)
| AdditionalActions_form_validate (calls : Action_calls)
| AdditionalActions_form_calculate (calls : Action_calls)
| AdditionalActions_cat_before_close (calls : Action_calls)
| AdditionalActions_cat_before_save (calls : Action_calls)
| AdditionalActions_cat_after_save (calls : Action_calls)
| AdditionalActions_cat_before_print (calls : Action_calls)
| AdditionalActions_cat_after_print (calls : Action_calls).
Definition AdditionalActions_entries (c : AdditionalActions_call) : list (bytes * obj) :=
  match c with
  | AdditionalActions_annot_curser_enter calls => [(lit "E", Action_obj calls)]   (* src/actions.rs:306-308 *)
  | AdditionalActions_annot_cursor_exit calls => [(lit "X", Action_obj calls)]   (* src/actions.rs:313-315 *)
  | AdditionalActions_annot_mouse_press calls => [(lit "D", Action_obj calls)]   (* src/actions.rs:320-322 *)
  | AdditionalActions_annot_mouse_release calls => [(lit "U", Action_obj calls)]   (* src/actions.rs:327-329 *)
  | AdditionalActions_annot_page_open calls => [(lit "PO", Action_obj calls)]   (* src/actions.rs:334-336 *)
  | AdditionalActions_annot_page_close calls => [(lit "PV", Action_obj calls)]   (* src/actions.rs:341-343 *)
  | AdditionalActions_annot_page_visible calls => [(lit "PV", Action_obj calls)]   (* src/actions.rs:348-350 *)
  | AdditionalActions_annot_page_invisible calls => [(lit "PI", Action_obj calls)]   (* src/actions.rs:356-358 *)
  | AdditionalActions_widget_focus calls => [(lit "Fo", Action_obj calls)]   (* src/actions.rs:367-369 *)
  | AdditionalActions_widget_focus_loss calls => [(lit "Bl", Action_obj calls)]   (* src/actions.rs:374-376 *)
  | AdditionalActions_page_open calls => [(lit "O", Action_obj calls)]   (* src/actions.rs:386-388 *)
  | AdditionalActions_page_close calls => [(lit "C", Action_obj calls)]   (* src/actions.rs:394-396 *)
  | AdditionalActions_form_calculate_partial calls => [(lit "K", Action_obj calls)]   (* src/actions.rs:406-408 *)
  | AdditionalActions_form_format calls => [(lit "F", Action_obj calls)]   (* src/actions.rs:414-416 *)
  | AdditionalActions_form_validate calls => [(lit "V", Action_obj calls)]   (* src/actions.rs:422-424 *)
  | AdditionalActions_form_calculate calls => [(lit "C", Action_obj calls)]   (* src/actions.rs:431-433 *)
  | AdditionalActions_cat_before_close calls => [(lit "WC", Action_obj calls)]   (* src/actions.rs:441-443 *)
  | AdditionalActions_cat_before_save calls => [(lit "WS", Action_obj calls)]   (* src/actions.rs:448-450 *)
  | AdditionalActions_cat_after_save calls => [(lit "DS", Action_obj calls)]   (* src/actions.rs:455-457 *)
  | AdditionalActions_cat_before_print calls => [(lit "WP", Action_obj calls)]   (* src/actions.rs:462-464 *)
  | AdditionalActions_cat_after_print calls => [(lit "DP", Action_obj calls)]   (* src/actions.rs:469-471 *)
  end.
(** src/actions.rs:299: no entries. *)
Definition AdditionalActions_header : list (bytes * obj) := [].
Definition AdditionalActions_calls : Type := list (or_raw AdditionalActions_call).
Definition AdditionalActions_obj (cs : AdditionalActions_calls) : obj := dict_writer AdditionalActions_header AdditionalActions_entries cs.

(** ** Appearance (src/annotations.rs) *)

Inductive Appearance_call :=
| Appearance_normal (x : AppearanceEntry_call)
| Appearance_rollover (x : AppearanceEntry_call)
| Appearance_alternate (x : AppearanceEntry_call).
Definition Appearance_entries (c : Appearance_call) : list (bytes * obj) :=
  match c with
  | Appearance_normal x => [(lit "N", AppearanceEntry_obj x)]   (* src/annotations.rs:684-686 *)
  | Appearance_rollover x => [(lit "R", AppearanceEntry_obj x)]   (* src/annotations.rs:690-692 *)
  | Appearance_alternate x => [(lit "D", AppearanceEntry_obj x)]   (* src/annotations.rs:696-698 *)
  end.
(** src/annotations.rs:679: no entries. *)
Definition Appearance_header : list (bytes * obj) := [].
Definition Appearance_calls : Type := list (or_raw Appearance_call).
Definition Appearance_obj (cs : Appearance_calls) : obj := dict_writer Appearance_header Appearance_entries cs.

(** ** IconFit (src/annotations.rs) *)

Inductive IconFit_call :=
| IconFit_scale (value : IconScale)
| IconFit_scale_type (value : IconScaleType)
| IconFit_leftover_space (x : f32) (y : f32)
| IconFit_fit_bounds (fit : bool).
Definition IconFit_entries (c : IconFit_call) : list (bytes * obj) :=
  match c with
  | IconFit_scale value => [(lit "SW", OPrim (PName (IconScale_name value)))]   (* src/annotations.rs:565-568 *)
  | IconFit_scale_type value => [(lit "S", OPrim (PName (IconScaleType_name value)))]   (* src/annotations.rs:571-574 *)
  | IconFit_leftover_space x y => [(lit "A", reals [x; y])]   (* src/annotations.rs:579-582 *)
  | IconFit_fit_bounds fit => [(lit "FB", OPrim (PBool fit))]   (* src/annotations.rs:587-590 *)
  end.
(** src/annotations.rs:560: no entries. *)
Definition IconFit_header : list (bytes * obj) := [].
Definition IconFit_calls : Type := list (or_raw IconFit_call).
Definition IconFit_obj (cs : IconFit_calls) : obj := dict_writer IconFit_header IconFit_entries cs.

(** ** AppearanceCharacteristics (src/annotations.rs) *)

Inductive AppearanceCharacteristics_call :=
| AppearanceCharacteristics_rotate (degrees : Z)
| AppearanceCharacteristics_border_color_transparent
| AppearanceCharacteristics_border_color_gray (gray : f32)
| AppearanceCharacteristics_border_color_rgb (r : f32) (g : f32) (b : f32)
| AppearanceCharacteristics_border_color_cymk (c : f32) (y : f32) (m : f32) (k : f32)
| AppearanceCharacteristics_background_color_transparent
| AppearanceCharacteristics_background_color_gray (gray : f32)
| AppearanceCharacteristics_background_color_rgb (r : f32) (g : f32) (b : f32)
| AppearanceCharacteristics_background_color_cymk (c : f32) (y : f32) (m : f32) (k : f32)
| AppearanceCharacteristics_normal_caption (caption : textlike)
| AppearanceCharacteristics_rollover_caption (caption : textlike)
| AppearanceCharacteristics_alternate_caption (caption : textlike)
| AppearanceCharacteristics_normal_icon (id : Z)
| AppearanceCharacteristics_rollover_icon (id : Z)
| AppearanceCharacteristics_alternate_icon (id : Z)
| AppearanceCharacteristics_icon_fit (calls : IconFit_calls)
| AppearanceCharacteristics_text_position (position : TextPosition).
Definition AppearanceCharacteristics_entries (c : AppearanceCharacteristics_call) : list (bytes * obj) :=
  match c with
  | AppearanceCharacteristics_rotate degrees => [(lit "R", OPrim (PInt degrees))]   (* src/annotations.rs:405-408 *)
  | AppearanceCharacteristics_border_color_transparent => [(lit "BC", reals [])]   (* src/annotations.rs:412-415 *)
  | AppearanceCharacteristics_border_color_gray gray => [(lit "BC", reals [gray])]   (* src/annotations.rs:419-422 *)
  | AppearanceCharacteristics_border_color_rgb r g b => [(lit "BC", reals [r; g; b])]   (* src/annotations.rs:426-429 *)
  | AppearanceCharacteristics_border_color_cymk c y m k => [(lit "BC", reals [c; y; m; k])]   (* src/annotations.rs:433-436 *)
  | AppearanceCharacteristics_background_color_transparent => [(lit "BG", reals [])]   (* src/annotations.rs:440-443 *)
  | AppearanceCharacteristics_background_color_gray gray => [(lit "BG", reals [gray])]   (* src/annotations.rs:447-450 *)
  | AppearanceCharacteristics_background_color_rgb r g b => [(lit "BG", reals [r; g; b])]   (* src/annotations.rs:454-457 *)
  | AppearanceCharacteristics_background_color_cymk c y m k => [(lit "BG", reals [c; y; m; k])]   (* src/annotations.rs:461-464 *)
  | AppearanceCharacteristics_normal_caption caption => [(lit "CA", OPrim (text_prim caption))]   (* src/annotations.rs:468-471 *)
  | AppearanceCharacteristics_rollover_caption caption => [(lit "RC", OPrim (text_prim caption))]   (* src/annotations.rs:479-482 *)
  | AppearanceCharacteristics_alternate_caption caption => [(lit "AC", OPrim (text_prim caption))]   (* src/annotations.rs:486-489 *)
  | AppearanceCharacteristics_normal_icon id => [(lit "I", OPrim (PRef id))]   (* src/annotations.rs:494-497 *)
  | AppearanceCharacteristics_rollover_icon id => [(lit "RI", OPrim (PRef id))]   (* src/annotations.rs:502-505 *)
  | AppearanceCharacteristics_alternate_icon id => [(lit "IX", OPrim (PRef id))]   (* src/annotations.rs:510-513 *)
  | AppearanceCharacteristics_icon_fit calls => [(lit "IF", IconFit_obj calls)]   (* src/annotations.rs:517-519 *)
  | AppearanceCharacteristics_text_position position => [(lit "TP", OPrim (PInt (TextPosition_int position)))]   (* src/annotations.rs:524-527 *)
  end.
(** src/annotations.rs:399: no entries. *)
Definition AppearanceCharacteristics_header : list (bytes * obj) := [].
Definition AppearanceCharacteristics_calls : Type := list (or_raw AppearanceCharacteristics_call).
Definition AppearanceCharacteristics_obj (cs : AppearanceCharacteristics_calls) : obj := dict_writer AppearanceCharacteristics_header AppearanceCharacteristics_entries cs.

(** ** BorderStyle (src/annotations.rs) *)

Inductive BorderStyle_call :=
| BorderStyle_width (points : f32)
| BorderStyle_style (style : BorderType)
| BorderStyle_dashes (dash_pattern : list f32).
Definition BorderStyle_entries (c : BorderStyle_call) : list (bytes * obj) :=
  match c with
  | BorderStyle_width points => [(lit "W", OPrim (PReal points))]   (* src/annotations.rs:744-747 *)
  | BorderStyle_style style => [(lit "S", OPrim (PName (BorderType_name style)))]   (* src/annotations.rs:750-753 *)
  | BorderStyle_dashes dash_pattern => [(lit "D", reals dash_pattern)]   (* src/annotations.rs:757-760 *)
  end.
(** src/annotations.rs:736-740. *)
Definition BorderStyle_header : list (bytes * obj) := [(lit "Type", OPrim (PName (lit "Border")))].
Definition BorderStyle_calls : Type := list (or_raw BorderStyle_call).
Definition BorderStyle_obj (cs : BorderStyle_calls) : obj := dict_writer BorderStyle_header BorderStyle_entries cs.

(** ** Annotation (src/annotations.rs) *)

Inductive Annotation_call :=
| Annotation_subtype (kind : AnnotationType)
| Annotation_rect (rect : rect)
| Annotation_contents (text : textlike)
| Annotation_page (id : Z)
| Annotation_name (text : textlike)
| Annotation_modified (date : date)
| Annotation_flags (flags : list AnnotationFlags)
| Annotation_appearance (calls : Appearance_calls)
| Annotation_appearance_state (name : bytes)
| Annotation_border (h_radius : f32) (v_radius : f32) (width : f32) (dash_pattern : option (list f32))
| Annotation_border_style (calls : BorderStyle_calls)
| Annotation_color_transparent
| Annotation_color_gray (gray : f32)
| Annotation_color_rgb (r : f32) (g : f32) (b : f32)
| Annotation_color_cmyk (c : f32) (m : f32) (y : f32) (k : f32)
| Annotation_struct_parent (key : Z)
| Annotation_action (calls : Action_calls)
| Annotation_additional_actions (calls : AdditionalActions_calls)
| Annotation_highlight (effect : HighlightEffect)
| Annotation_author (text : textlike)
| Annotation_subject (text : textlike)
| Annotation_quad_points (coordinates : list f32)
| Annotation_line_to (x1 : f32) (y1 : f32) (x2 : f32) (y2 : f32)
| Annotation_file_spec (calls : FileSpec_calls)
| Annotation_icon (icon : AnnotationIcon)
| Annotation_appearance_characteristics (calls : AppearanceCharacteristics_calls)
| Annotation_parent (id : Z)
| Annotation_associated_files (items : list FileSpec_calls).
Definition Annotation_entries (c : Annotation_call) : list (bytes * obj) :=
  match c with
  | Annotation_subtype kind => [(lit "Subtype", OPrim (PName (AnnotationType_name kind)))]   (* src/annotations.rs:20-23 *)
  | Annotation_rect rect => [(lit "Rect", OPrim (PRect rect))]   (* src/annotations.rs:27-30 *)
  | Annotation_contents text => [(lit "Contents", OPrim (text_prim text))]   (* src/annotations.rs:34-37 *)
  | Annotation_page id => [(lit "P", OPrim (PRef id))]   (* src/annotations.rs:42-45 *)
  | Annotation_name text => [(lit "NM", OPrim (text_prim text))]   (* src/annotations.rs:49-52 *)
  | Annotation_modified date => [(lit "M", OPrim (PDate date))]   (* src/annotations.rs:56-59 *)
  | Annotation_flags flags => [(lit "F", OPrim (PInt (flags_bits AnnotationFlags_bit flags)))]   (* src/annotations.rs:64-67 *)
  | Annotation_appearance calls => [(lit "AP", Appearance_obj calls)]   (* src/annotations.rs:74-76 *)
  | Annotation_appearance_state name => [(lit "AS", OPrim (PName name))]   (* src/annotations.rs:81-84 *)
  | Annotation_border h_radius v_radius width dash_pattern => [(lit "Border", OArray (border_items h_radius v_radius width dash_pattern))]   (* src/annotations.rs:92-110 *)
  | Annotation_border_style calls => [(lit "BS", BorderStyle_obj calls)]   (* src/annotations.rs:114-116 *)
  | Annotation_color_transparent => [(lit "C", reals [])]   (* src/annotations.rs:120-123 *)
  | Annotation_color_gray gray => [(lit "C", reals [gray])]   (* src/annotations.rs:127-130 *)
  | Annotation_color_rgb r g b => [(lit "C", reals [r; g; b])]   (* src/annotations.rs:134-137 *)
  | Annotation_color_cmyk c m y k => [(lit "C", reals [c; m; y; k])]   (* src/annotations.rs:141-144 *)
  | Annotation_struct_parent key => [(lit "StructParent", OPrim (PInt key))]   (* src/annotations.rs:148-151 *)
  | Annotation_action calls => [(lit "A", Action_obj calls)]   (* src/annotations.rs:157-159 *)
  | Annotation_additional_actions calls => [(lit "AA", AdditionalActions_obj calls)]   (* src/annotations.rs:165-167 *)
  | Annotation_highlight effect => [(lit "H", OPrim (PName (HighlightEffect_name effect)))]   (* src/annotations.rs:172-175 *)
  | Annotation_author text => [(lit "T", OPrim (text_prim text))]   (* src/annotations.rs:179-182 *)
  | Annotation_subject text => [(lit "Subj", OPrim (text_prim text))]   (* src/annotations.rs:186-189 *)
  | Annotation_quad_points coordinates => [(lit "QuadPoints", reals coordinates)]   (* src/annotations.rs:193-199 *)
  | Annotation_line_to x1 y1 x2 y2 => [(lit "L", reals [x1; y1; x2; y2])]   (* src/annotations.rs:203-206 *)
  | Annotation_file_spec calls => [(lit "FS", FileSpec_obj calls)]   (* src/annotations.rs:209-211 *)
  | Annotation_icon icon => [(lit "Name", OPrim (PName (AnnotationIcon_name icon)))]   (* src/annotations.rs:215-218 *)
  | Annotation_appearance_characteristics calls => [(lit "MK", AppearanceCharacteristics_obj calls)]   (* src/annotations.rs:222-224 *)
  | Annotation_parent id => [(lit "Parent", OPrim (PRef id))]   (* src/annotations.rs:228-231 *)
  | Annotation_associated_files items => [(lit "AF", arr_of FileSpec_obj items)]   (* src/annotations.rs:235-237 *)
  end.
(** src/annotations.rs:11-15. *)
Definition Annotation_header : list (bytes * obj) := [(lit "Type", OPrim (PName (lit "Annot")))].
Definition Annotation_calls : Type := list (or_raw Annotation_call).
Definition Annotation_obj (cs : Annotation_calls) : obj := dict_writer Annotation_header Annotation_entries cs.
