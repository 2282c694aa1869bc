(** Specification of typed writers: annotations, actions, renditions and destinations: the entries of every method, from its signature and documentation,
    and the conditions on its arguments. *)

From Coq Require Import ZArith List Bool.
From Verif Require ModelContent ModelCmap.
From Verif Require Import Bytes ModelFloat ModelBuf ModelObject ModelColor ModelSmall ModelPdf ModelTw ModelEnums ModelRoles ModelTwArgs ModelTwFiles ModelTwGraphics ModelTwAnnot SpecLex SpecObj SpecText SpecMeans SpecPdf SpecTyped SpecColor SpecSmall SpecTw SpecEnums SpecRoles SpecTwArgs SpecTwFiles SpecTwGraphics.
Import ListNotations.
Local Open Scope Z_scope.

(** ** Destination *)

Definition Destination_doc (c : Destination_call) : list (val -> Prop) :=
  match c with
  | Destination_page page => [is_ref page]
  | Destination_xyz left_ top zoom => [is_name (lit "XYZ"); is_real left_; is_real top; is_real (match zoom with Some z => z | None => f32_zero end)]
  | Destination_fit => [is_name (lit "Fit")]
  | Destination_fit_horizontal top => [is_name (lit "FitH"); is_real top]
  | Destination_fit_vertical left_ => [is_name (lit "FitV"); is_real left_]
  | Destination_fit_rect rect => [is_name (lit "FitR"); is_real (x1 rect); is_real (y1 rect); is_real (x2 rect); is_real (y2 rect)]
  | Destination_fit_bounding_box => [is_name (lit "FitB")]
  | Destination_fit_bounding_box_horizontal top => [is_name (lit "FitBH"); is_real top]
  | Destination_fit_bounding_box_vertical left_ => [is_name (lit "FitBV"); is_real left_]
  end.
Definition Destination_call_ok (c : Destination_call) : bool :=
  match c with
  | Destination_page page => ref_ok page
  | Destination_xyz left_ top zoom => real_ok left_ && real_ok top && opt_ok real_ok zoom
  | Destination_fit => true
  | Destination_fit_horizontal top => real_ok top
  | Destination_fit_vertical left_ => real_ok left_
  | Destination_fit_rect rect => rect_ok rect
  | Destination_fit_bounding_box => true
  | Destination_fit_bounding_box_horizontal top => real_ok top
  | Destination_fit_bounding_box_vertical left_ => real_ok left_
  end.
Definition Destination_reads (cs : Destination_calls) : val -> Prop := array_reads Destination_doc cs.
Definition Destination_ok (cs : Destination_calls) : bool := forallb (item_ok Destination_call_ok) cs.

(** A sample: every method once. *)
Definition Destination_sample : Destination_calls := [
  TypedItem (Destination_page 7); TypedItem (Destination_xyz (FFin false 8388608 (-23)) (FFin false 8388608 (-23)) None); TypedItem Destination_fit; TypedItem (Destination_fit_horizontal (FFin false 8388608 (-23))); TypedItem (Destination_fit_vertical (FFin false 8388608 (-23))); TypedItem (Destination_fit_rect (mkRect f32_zero f32_zero (FFin false 8388608 (-23)) (FFin false 8388608 (-23)))); TypedItem Destination_fit_bounding_box; TypedItem (Destination_fit_bounding_box_horizontal (FFin false 8388608 (-23))); TypedItem (Destination_fit_bounding_box_vertical (FFin false 8388608 (-23))); RawItem (OPrim (PInt 5))].

(** ** Fields *)

Definition Fields_doc (c : Fields_call) : list (val -> Prop) :=
  match c with
  | Fields_id id => [is_ref id]
  | Fields_ids ids => map is_ref ids
  | Fields_name name => [is_text name]
  | Fields_names names_ => map is_text names_
  end.
Definition Fields_call_ok (c : Fields_call) : bool :=
  match c with
  | Fields_id id => ref_ok id
  | Fields_ids ids => forallb ref_ok ids
  | Fields_name name => text_ok name
  | Fields_names names_ => forallb text_ok names_
  end.
Definition Fields_reads (cs : Fields_calls) : val -> Prop := array_reads Fields_doc cs.
Definition Fields_ok (cs : Fields_calls) : bool := forallb (item_ok Fields_call_ok) cs.

(** A sample: every method once. *)
Definition Fields_sample : Fields_calls := [
  TypedItem (Fields_id 7); TypedItem (Fields_ids [3; 4]); TypedItem (Fields_name [960; 65]); TypedItem (Fields_names [[65]; [960]]); RawItem (OPrim (PInt 5))].

(** ** MediaPermissions *)

(** Written by the constructor. *)
Definition MediaPermissions_head : list entry_spec := [(lit "Type", is_name (lit "MediaPermissions"))].
Definition MediaPermissions_doc (c : MediaPermissions_call) : list entry_spec :=
  match c with
  | MediaPermissions_temp_file tf => [(lit "TF", is_TempFileType tf)]
  end.
Definition MediaPermissions_call_ok (c : MediaPermissions_call) : bool :=
  match c with
  | MediaPermissions_temp_file _ => true
  end.
Definition MediaPermissions_reads (cs : MediaPermissions_calls) : val -> Prop := writer_reads MediaPermissions_head MediaPermissions_doc cs.
Definition MediaPermissions_ok (cs : MediaPermissions_calls) : bool := forallb (raw_ok MediaPermissions_call_ok) cs.

(** A sample: every method once. *)
Definition MediaPermissions_sample : MediaPermissions_calls := [
  Typed (MediaPermissions_temp_file TempFileType_Always); Raw (lit "Extra") (OArray [OPrim (PBool true)])].

(** ** MediaPlayParams *)

(** Written by the constructor. *)
Definition MediaPlayParams_head : list entry_spec := [(lit "Type", is_name (lit "MediaPlayParams"))].
Definition MediaPlayParams_doc (c : MediaPlayParams_call) : list entry_spec :=
  match c with
  | MediaPlayParams_controls c => [(lit "BE", is_dict [(lit "C", is_bool c)])]
  end.
Definition MediaPlayParams_call_ok (c : MediaPlayParams_call) : bool :=
  match c with
  | MediaPlayParams_controls _ => true
  end.
Definition MediaPlayParams_reads (cs : MediaPlayParams_calls) : val -> Prop := writer_reads MediaPlayParams_head MediaPlayParams_doc cs.
Definition MediaPlayParams_ok (cs : MediaPlayParams_calls) : bool := forallb (raw_ok MediaPlayParams_call_ok) cs.

(** A sample: every method once. *)
Definition MediaPlayParams_sample : MediaPlayParams_calls := [
  Typed (MediaPlayParams_controls true); Raw (lit "Extra") (OArray [OPrim (PBool true)])].

(** ** MediaClip *)

(** Written by the constructor. *)
Definition MediaClip_head : list entry_spec := [(lit "Type", is_name (lit "MediaClip"))].
Definition MediaClip_doc (c : MediaClip_call) : list entry_spec :=
  match c with
  | MediaClip_subtype kind => [(lit "S", is_MediaClipType kind)]
  | MediaClip_name text => [(lit "N", is_textlike text)]
  | MediaClip_data calls => [(lit "D", FileSpec_reads calls)]
  | MediaClip_data_type tf => [(lit "CT", is_str tf)]
  | MediaClip_permissions calls => [(lit "P", MediaPermissions_reads calls)]
  | MediaClip_alt_texts texts => [(lit "Alt", is_array_of is_text texts)]
  end.
Definition MediaClip_call_ok (c : MediaClip_call) : bool :=
  match c with
  | MediaClip_subtype _ => true
  | MediaClip_name text => textlike_ok text
  | MediaClip_data calls => FileSpec_ok calls
  | MediaClip_data_type _ => true
  | MediaClip_permissions calls => MediaPermissions_ok calls
  | MediaClip_alt_texts texts => forallb text_ok texts
  end.
Definition MediaClip_reads (cs : MediaClip_calls) : val -> Prop := writer_reads MediaClip_head MediaClip_doc cs.
Definition MediaClip_ok (cs : MediaClip_calls) : bool := forallb (raw_ok MediaClip_call_ok) cs.

(** A sample: every method once. *)
Definition MediaClip_sample : MediaClip_calls := [
  Typed (MediaClip_subtype MediaClipType_Section); Typed (MediaClip_name (TextPlain [97; 128512])); Typed (MediaClip_data FileSpec_sample); Typed (MediaClip_data_type (lit "x(y")); Typed (MediaClip_permissions MediaPermissions_sample); Typed (MediaClip_alt_texts [[65]; [960]]); Raw (lit "Extra") (OArray [OPrim (PBool true)])].

(** ** Rendition *)

(** Written by the constructor. *)
Definition Rendition_head : list entry_spec := [(lit "Type", is_name (lit "Rendition"))].
Definition Rendition_doc (c : Rendition_call) : list entry_spec :=
  match c with
  | Rendition_subtype kind => [(lit "S", is_RenditionType kind)]
  | Rendition_name text => [(lit "N", is_textlike text)]
  | Rendition_media_clip calls => [(lit "C", MediaClip_reads calls)]
  | Rendition_media_play_params calls => [(lit "P", MediaPlayParams_reads calls)]
  end.
Definition Rendition_call_ok (c : Rendition_call) : bool :=
  match c with
  | Rendition_subtype _ => true
  | Rendition_name text => textlike_ok text
  | Rendition_media_clip calls => MediaClip_ok calls
  | Rendition_media_play_params calls => MediaPlayParams_ok calls
  end.
Definition Rendition_reads (cs : Rendition_calls) : val -> Prop := writer_reads Rendition_head Rendition_doc cs.
Definition Rendition_ok (cs : Rendition_calls) : bool := forallb (raw_ok Rendition_call_ok) cs.

(** A sample: every method once. *)
Definition Rendition_sample : Rendition_calls := [
  Typed (Rendition_subtype RenditionType_Selector); Typed (Rendition_name (TextPlain [97; 128512])); Typed (Rendition_media_clip MediaClip_sample); Typed (Rendition_media_play_params MediaPlayParams_sample); Raw (lit "Extra") (OArray [OPrim (PBool true)])].

(** ** Action *)

(** Written by the constructor. *)
Definition Action_head : list entry_spec := [(lit "Type", is_name (lit "Action"))].
Definition Action_doc (c : Action_call) : list entry_spec :=
  match c with
  | Action_action_type kind => [(lit "S", is_ActionType kind)]
  | Action_destination calls => [(lit "D", Destination_reads calls)]
  | Action_destination_named name => [(lit "D", is_name name)]
  | Action_file_spec calls => [(lit "F", FileSpec_reads calls)]
  | Action_new_window new => [(lit "NewWindow", is_bool new)]
  | Action_uri uri => [(lit "URI", is_str uri)]
  | Action_is_map map_ => [(lit "IsMap", is_bool map_)]
  | Action_js_string script => [(lit "JS", is_text script)]
  | Action_js_stream script => [(lit "JS", is_ref script)]
  | Action_fields calls => [(lit "Fields", Fields_reads calls)]
  | Action_form_flags flags => [(lit "Flags", is_flags FormActionFlags_pos flags)]
  | Action_operation op => [(lit "OP", is_RenditionOperation op)]
  | Action_annotation id => [(lit "AN", is_ref id)]
  | Action_rendition calls => [(lit "R", Rendition_reads calls)]
  end.
Definition Action_call_ok (c : Action_call) : bool :=
  match c with
  | Action_action_type _ => true
  | Action_destination calls => Destination_ok calls
  | Action_destination_named name => name_ok name
  | Action_file_spec calls => FileSpec_ok calls
  | Action_new_window _ => true
  | Action_uri _ => true
  | Action_is_map _ => true
  | Action_js_string script => text_ok script
  | Action_js_stream script => ref_ok script
  | Action_fields calls => Fields_ok calls
  | Action_form_flags _ => true
  | Action_operation _ => true
  | Action_annotation id => ref_ok id
  | Action_rendition calls => Rendition_ok calls
  end.
Definition Action_reads (cs : Action_calls) : val -> Prop := writer_reads Action_head Action_doc cs.
Definition Action_ok (cs : Action_calls) : bool := forallb (raw_ok Action_call_ok) cs.

(** A sample: every method once. *)
Definition Action_sample : Action_calls := [
  Typed (Action_action_type ActionType_Rendition); Typed (Action_destination Destination_sample); Typed (Action_destination_named (lit "a b")); Typed (Action_file_spec FileSpec_sample); Typed (Action_new_window true); Typed (Action_uri (lit "x(y")); Typed (Action_is_map true); Typed (Action_js_string [960; 65]); Typed (Action_js_stream 7); Typed (Action_fields Fields_sample); Typed (Action_form_flags [FormActionFlags_ExcludeFKey; FormActionFlags_EmbedForm]); Typed (Action_operation RenditionOperation_PlayOrResume); Typed (Action_annotation 7); Typed (Action_rendition Rendition_sample); Raw (lit "Extra") (OArray [OPrim (PBool true)])].

(** ** AdditionalActions *)

(** Written by the constructor: nothing. *)
Definition AdditionalActions_head : list entry_spec := [].
Definition AdditionalActions_doc (c : AdditionalActions_call) : list entry_spec :=
  match c with
  | AdditionalActions_annot_curser_enter calls => [(lit "E", Action_reads calls)]
  | AdditionalActions_annot_cursor_exit calls => [(lit "X", Action_reads calls)]
  | AdditionalActions_annot_mouse_press calls => [(lit "D", Action_reads calls)]
  | AdditionalActions_annot_mouse_release calls => [(lit "U", Action_reads calls)]
  | AdditionalActions_annot_page_open calls => [(lit "PO", Action_reads calls)]
  | AdditionalActions_annot_page_close calls => [(lit "PV", Action_reads calls)]   (* the documentation and ISO 32000 say PC: see C48_page_close_refuted *)
  | AdditionalActions_annot_page_visible calls => [(lit "PV", Action_reads calls)]
  | AdditionalActions_annot_page_invisible calls => [(lit "PI", Action_reads calls)]
  | AdditionalActions_widget_focus calls => [(lit "Fo", Action_reads calls)]
  | AdditionalActions_widget_focus_loss calls => [(lit "Bl", Action_reads calls)]
  | AdditionalActions_page_open calls => [(lit "O", Action_reads calls)]
  | AdditionalActions_page_close calls => [(lit "C", Action_reads calls)]
  | AdditionalActions_form_calculate_partial calls => [(lit "K", Action_reads calls)]
  | AdditionalActions_form_format calls => [(lit "F", Action_reads calls)]
  | AdditionalActions_form_validate calls => [(lit "V", Action_reads calls)]
  | AdditionalActions_form_calculate calls => [(lit "C", Action_reads calls)]
  | AdditionalActions_cat_before_close calls => [(lit "WC", Action_reads calls)]
  | AdditionalActions_cat_before_save calls => [(lit "WS", Action_reads calls)]
  | AdditionalActions_cat_after_save calls => [(lit "DS", Action_reads calls)]
  | AdditionalActions_cat_before_print calls => [(lit "WP", Action_reads calls)]
  | AdditionalActions_cat_after_print calls => [(lit "DP", Action_reads calls)]
  end.
Definition AdditionalActions_call_ok (c : AdditionalActions_call) : bool :=
  match c with
  | AdditionalActions_annot_curser_enter calls => Action_ok calls
  | AdditionalActions_annot_cursor_exit calls => Action_ok calls
  | AdditionalActions_annot_mouse_press calls => Action_ok calls
  | AdditionalActions_annot_mouse_release calls => Action_ok calls
  | AdditionalActions_annot_page_open calls => Action_ok calls
  | AdditionalActions_annot_page_close calls => Action_ok calls
  | AdditionalActions_annot_page_visible calls => Action_ok calls
  | AdditionalActions_annot_page_invisible calls => Action_ok calls
  | AdditionalActions_widget_focus calls => Action_ok calls
  | AdditionalActions_widget_focus_loss calls => Action_ok calls
  | AdditionalActions_page_open calls => Action_ok calls
  | AdditionalActions_page_close calls => Action_ok calls
  | AdditionalActions_form_calculate_partial calls => Action_ok calls
  | AdditionalActions_form_format calls => Action_ok calls
  | AdditionalActions_form_validate calls => Action_ok calls
  | AdditionalActions_form_calculate calls => Action_ok calls
  | AdditionalActions_cat_before_close calls => Action_ok calls
  | AdditionalActions_cat_before_save calls => Action_ok calls
  | AdditionalActions_cat_after_save calls => Action_ok calls
  | AdditionalActions_cat_before_print calls => Action_ok calls
  | AdditionalActions_cat_after_print calls => Action_ok calls
  end.
Definition AdditionalActions_reads (cs : AdditionalActions_calls) : val -> Prop := writer_reads AdditionalActions_head AdditionalActions_doc cs.
Definition AdditionalActions_ok (cs : AdditionalActions_calls) : bool := forallb (raw_ok AdditionalActions_call_ok) cs.

(** A sample: every method once. *)
Definition AdditionalActions_sample : AdditionalActions_calls := [
  Typed (AdditionalActions_annot_curser_enter Action_sample); Typed (AdditionalActions_annot_cursor_exit Action_sample); Typed (AdditionalActions_annot_mouse_press Action_sample); Typed (AdditionalActions_annot_mouse_release Action_sample); Typed (AdditionalActions_annot_page_open Action_sample); Typed (AdditionalActions_annot_page_close Action_sample); Typed (AdditionalActions_annot_page_visible Action_sample); Typed (AdditionalActions_annot_page_invisible Action_sample); Typed (AdditionalActions_widget_focus Action_sample); Typed (AdditionalActions_widget_focus_loss Action_sample); Typed (AdditionalActions_page_open Action_sample); Typed (AdditionalActions_page_close Action_sample); Typed (AdditionalActions_form_calculate_partial Action_sample); Typed (AdditionalActions_form_format Action_sample); Typed (AdditionalActions_form_validate Action_sample); Typed (AdditionalActions_form_calculate Action_sample); Typed (AdditionalActions_cat_before_close Action_sample); Typed (AdditionalActions_cat_before_save Action_sample); Typed (AdditionalActions_cat_after_save Action_sample); Typed (AdditionalActions_cat_before_print Action_sample); Typed (AdditionalActions_cat_after_print Action_sample); Raw (lit "Extra") (OArray [OPrim (PBool true)])].

(** ** Appearance *)

(** Written by the constructor: nothing. *)
Definition Appearance_head : list entry_spec := [].
Definition Appearance_doc (c : Appearance_call) : list entry_spec :=
  match c with
  | Appearance_normal x => [(lit "N", AppearanceEntry_reads x)]
  | Appearance_rollover x => [(lit "R", AppearanceEntry_reads x)]
  | Appearance_alternate x => [(lit "D", AppearanceEntry_reads x)]
  end.
Definition Appearance_call_ok (c : Appearance_call) : bool :=
  match c with
  | Appearance_normal x => AppearanceEntry_ok x
  | Appearance_rollover x => AppearanceEntry_ok x
  | Appearance_alternate x => AppearanceEntry_ok x
  end.
Definition Appearance_reads (cs : Appearance_calls) : val -> Prop := writer_reads Appearance_head Appearance_doc cs.
Definition Appearance_ok (cs : Appearance_calls) : bool := forallb (raw_ok Appearance_call_ok) cs.

(** A sample: every method once. *)
Definition Appearance_sample : Appearance_calls := [
  Typed (Appearance_normal (AppearanceEntry_streams [(lit "On", 4)])); Typed (Appearance_rollover (AppearanceEntry_streams [(lit "On", 4)])); Typed (Appearance_alternate (AppearanceEntry_streams [(lit "On", 4)])); Raw (lit "Extra") (OArray [OPrim (PBool true)])].

(** ** IconFit *)

(** Written by the constructor: nothing. *)
Definition IconFit_head : list entry_spec := [].
Definition IconFit_doc (c : IconFit_call) : list entry_spec :=
  match c with
  | IconFit_scale value => [(lit "SW", is_IconScale value)]
  | IconFit_scale_type value => [(lit "S", is_IconScaleType value)]
  | IconFit_leftover_space x y => [(lit "A", is_reals [x; y])]
  | IconFit_fit_bounds fit => [(lit "FB", is_bool fit)]
  end.
Definition IconFit_call_ok (c : IconFit_call) : bool :=
  match c with
  | IconFit_scale _ => true
  | IconFit_scale_type _ => true
  | IconFit_leftover_space x y => real_ok x && real_ok y
  | IconFit_fit_bounds _ => true
  end.
Definition IconFit_reads (cs : IconFit_calls) : val -> Prop := writer_reads IconFit_head IconFit_doc cs.
Definition IconFit_ok (cs : IconFit_calls) : bool := forallb (raw_ok IconFit_call_ok) cs.

(** A sample: every method once. *)
Definition IconFit_sample : IconFit_calls := [
  Typed (IconFit_scale IconScale_Never); Typed (IconFit_scale_type IconScaleType_Proportional); Typed (IconFit_leftover_space (FFin false 8388608 (-23)) (FFin false 8388608 (-23))); Typed (IconFit_fit_bounds true); Raw (lit "Extra") (OArray [OPrim (PBool true)])].

(** ** AppearanceCharacteristics *)

(** Written by the constructor: nothing. *)
Definition AppearanceCharacteristics_head : list entry_spec := [].
Definition AppearanceCharacteristics_doc (c : AppearanceCharacteristics_call) : list entry_spec :=
  match c with
  | AppearanceCharacteristics_rotate degrees => [(lit "R", is_int degrees)]
  | AppearanceCharacteristics_border_color_transparent => [(lit "BC", is_reals [])]
  | AppearanceCharacteristics_border_color_gray gray => [(lit "BC", is_reals [gray])]
  | AppearanceCharacteristics_border_color_rgb r g b => [(lit "BC", is_reals [r; g; b])]
  | AppearanceCharacteristics_border_color_cymk c y m k => [(lit "BC", is_reals [c; y; m; k])]
  | AppearanceCharacteristics_background_color_transparent => [(lit "BG", is_reals [])]
  | AppearanceCharacteristics_background_color_gray gray => [(lit "BG", is_reals [gray])]
  | AppearanceCharacteristics_background_color_rgb r g b => [(lit "BG", is_reals [r; g; b])]
  | AppearanceCharacteristics_background_color_cymk c y m k => [(lit "BG", is_reals [c; y; m; k])]
  | AppearanceCharacteristics_normal_caption caption => [(lit "CA", is_textlike caption)]
  | AppearanceCharacteristics_rollover_caption caption => [(lit "RC", is_textlike caption)]
  | AppearanceCharacteristics_alternate_caption caption => [(lit "AC", is_textlike caption)]
  | AppearanceCharacteristics_normal_icon id => [(lit "I", is_ref id)]
  | AppearanceCharacteristics_rollover_icon id => [(lit "RI", is_ref id)]
  | AppearanceCharacteristics_alternate_icon id => [(lit "IX", is_ref id)]
  | AppearanceCharacteristics_icon_fit calls => [(lit "IF", IconFit_reads calls)]
  | AppearanceCharacteristics_text_position position => [(lit "TP", is_TextPosition position)]
  end.
Definition AppearanceCharacteristics_call_ok (c : AppearanceCharacteristics_call) : bool :=
  match c with
  | AppearanceCharacteristics_rotate degrees => in_i32 degrees
  | AppearanceCharacteristics_border_color_transparent => true
  | AppearanceCharacteristics_border_color_gray gray => real_ok gray
  | AppearanceCharacteristics_border_color_rgb r g b => real_ok r && real_ok g && real_ok b
  | AppearanceCharacteristics_border_color_cymk c y m k => real_ok c && real_ok y && real_ok m && real_ok k
  | AppearanceCharacteristics_background_color_transparent => true
  | AppearanceCharacteristics_background_color_gray gray => real_ok gray
  | AppearanceCharacteristics_background_color_rgb r g b => real_ok r && real_ok g && real_ok b
  | AppearanceCharacteristics_background_color_cymk c y m k => real_ok c && real_ok y && real_ok m && real_ok k
  | AppearanceCharacteristics_normal_caption caption => textlike_ok caption
  | AppearanceCharacteristics_rollover_caption caption => textlike_ok caption
  | AppearanceCharacteristics_alternate_caption caption => textlike_ok caption
  | AppearanceCharacteristics_normal_icon id => ref_ok id
  | AppearanceCharacteristics_rollover_icon id => ref_ok id
  | AppearanceCharacteristics_alternate_icon id => ref_ok id
  | AppearanceCharacteristics_icon_fit calls => IconFit_ok calls
  | AppearanceCharacteristics_text_position _ => true
  end.
Definition AppearanceCharacteristics_reads (cs : AppearanceCharacteristics_calls) : val -> Prop := writer_reads AppearanceCharacteristics_head AppearanceCharacteristics_doc cs.
Definition AppearanceCharacteristics_ok (cs : AppearanceCharacteristics_calls) : bool := forallb (raw_ok AppearanceCharacteristics_call_ok) cs.

(** A sample: every method once. *)
Definition AppearanceCharacteristics_sample : AppearanceCharacteristics_calls := [
  Typed (AppearanceCharacteristics_rotate (-3)); Typed AppearanceCharacteristics_border_color_transparent; Typed (AppearanceCharacteristics_border_color_gray (FFin false 8388608 (-23))); Typed (AppearanceCharacteristics_border_color_rgb (FFin false 8388608 (-23)) (FFin false 8388608 (-23)) (FFin false 8388608 (-23))); Typed (AppearanceCharacteristics_border_color_cymk (FFin false 8388608 (-23)) (FFin false 8388608 (-23)) (FFin false 8388608 (-23)) (FFin false 8388608 (-23))); Typed AppearanceCharacteristics_background_color_transparent; Typed (AppearanceCharacteristics_background_color_gray (FFin false 8388608 (-23))); Typed (AppearanceCharacteristics_background_color_rgb (FFin false 8388608 (-23)) (FFin false 8388608 (-23)) (FFin false 8388608 (-23))); Typed (AppearanceCharacteristics_background_color_cymk (FFin false 8388608 (-23)) (FFin false 8388608 (-23)) (FFin false 8388608 (-23)) (FFin false 8388608 (-23))); Typed (AppearanceCharacteristics_normal_caption (TextPlain [97; 128512])); Typed (AppearanceCharacteristics_rollover_caption (TextPlain [97; 128512])); Typed (AppearanceCharacteristics_alternate_caption (TextPlain [97; 128512])); Typed (AppearanceCharacteristics_normal_icon 7); Typed (AppearanceCharacteristics_rollover_icon 7); Typed (AppearanceCharacteristics_alternate_icon 7); Typed (AppearanceCharacteristics_icon_fit IconFit_sample); Typed (AppearanceCharacteristics_text_position TextPosition_Overlaid); Raw (lit "Extra") (OArray [OPrim (PBool true)])].

(** ** BorderStyle *)

(** Written by the constructor. *)
Definition BorderStyle_head : list entry_spec := [(lit "Type", is_name (lit "Border"))].
Definition BorderStyle_doc (c : BorderStyle_call) : list entry_spec :=
  match c with
  | BorderStyle_width points => [(lit "W", is_real points)]
  | BorderStyle_style style => [(lit "S", is_BorderType style)]
  | BorderStyle_dashes dash_pattern => [(lit "D", is_reals dash_pattern)]
  end.
Definition BorderStyle_call_ok (c : BorderStyle_call) : bool :=
  match c with
  | BorderStyle_width points => real_ok points
  | BorderStyle_style _ => true
  | BorderStyle_dashes dash_pattern => forallb real_ok dash_pattern
  end.
Definition BorderStyle_reads (cs : BorderStyle_calls) : val -> Prop := writer_reads BorderStyle_head BorderStyle_doc cs.
Definition BorderStyle_ok (cs : BorderStyle_calls) : bool := forallb (raw_ok BorderStyle_call_ok) cs.

(** A sample: every method once. *)
Definition BorderStyle_sample : BorderStyle_calls := [
  Typed (BorderStyle_width (FFin false 8388608 (-23))); Typed (BorderStyle_style BorderType_Underline); Typed (BorderStyle_dashes [(FFin false 8388608 (-23)); f32_zero]); Raw (lit "Extra") (OArray [OPrim (PBool true)])].

(** ** Annotation *)

(** Written by the constructor. *)
Definition Annotation_head : list entry_spec := [(lit "Type", is_name (lit "Annot"))].
Definition Annotation_doc (c : Annotation_call) : list entry_spec :=
  match c with
  | Annotation_subtype kind => [(lit "Subtype", is_AnnotationType kind)]
  | Annotation_rect rect => [(lit "Rect", is_rect rect)]
  | Annotation_contents text => [(lit "Contents", is_textlike text)]
  | Annotation_page id => [(lit "P", is_ref id)]
  | Annotation_name text => [(lit "NM", is_textlike text)]
  | Annotation_modified date => [(lit "M", is_date_of date)]
  | Annotation_flags flags => [(lit "F", is_flags AnnotationFlags_pos flags)]
  | Annotation_appearance calls => [(lit "AP", Appearance_reads calls)]
  | Annotation_appearance_state name => [(lit "AS", is_name name)]
  | Annotation_border h_radius v_radius width dash_pattern => [(lit "Border", is_border h_radius v_radius width dash_pattern)]
  | Annotation_border_style calls => [(lit "BS", BorderStyle_reads calls)]
  | Annotation_color_transparent => [(lit "C", is_reals [])]
  | Annotation_color_gray gray => [(lit "C", is_reals [gray])]
  | Annotation_color_rgb r g b => [(lit "C", is_reals [r; g; b])]
  | Annotation_color_cmyk c m y k => [(lit "C", is_reals [c; m; y; k])]
  | Annotation_struct_parent key => [(lit "StructParent", is_int key)]
  | Annotation_action calls => [(lit "A", Action_reads calls)]
  | Annotation_additional_actions calls => [(lit "AA", AdditionalActions_reads calls)]
  | Annotation_highlight effect => [(lit "H", is_HighlightEffect effect)]
  | Annotation_author text => [(lit "T", is_textlike text)]
  | Annotation_subject text => [(lit "Subj", is_textlike text)]
  | Annotation_quad_points coordinates => [(lit "QuadPoints", is_reals coordinates)]
  | Annotation_line_to x1 y1 x2 y2 => [(lit "L", is_reals [x1; y1; x2; y2])]
  | Annotation_file_spec calls => [(lit "FS", FileSpec_reads calls)]
  | Annotation_icon icon => [(lit "Name", is_AnnotationIcon icon)]
  | Annotation_appearance_characteristics calls => [(lit "MK", AppearanceCharacteristics_reads calls)]
  | Annotation_parent id => [(lit "Parent", is_ref id)]
  | Annotation_associated_files items => [(lit "AF", is_array_of FileSpec_reads items)]
  end.
Definition Annotation_call_ok (c : Annotation_call) : bool :=
  match c with
  | Annotation_subtype _ => true
  | Annotation_rect rect => rect_ok rect
  | Annotation_contents text => textlike_ok text
  | Annotation_page id => ref_ok id
  | Annotation_name text => textlike_ok text
  | Annotation_modified date => date_ok date
  | Annotation_flags _ => true
  | Annotation_appearance calls => Appearance_ok calls
  | Annotation_appearance_state name => name_ok name
  | Annotation_border h_radius v_radius width dash_pattern => real_ok h_radius && real_ok v_radius && real_ok width && dash_ok dash_pattern
  | Annotation_border_style calls => BorderStyle_ok calls
  | Annotation_color_transparent => true
  | Annotation_color_gray gray => real_ok gray
  | Annotation_color_rgb r g b => real_ok r && real_ok g && real_ok b
  | Annotation_color_cmyk c m y k => real_ok c && real_ok m && real_ok y && real_ok k
  | Annotation_struct_parent key => in_i32 key
  | Annotation_action calls => Action_ok calls
  | Annotation_additional_actions calls => AdditionalActions_ok calls
  | Annotation_highlight _ => true
  | Annotation_author text => textlike_ok text
  | Annotation_subject text => textlike_ok text
  | Annotation_quad_points coordinates => forallb real_ok coordinates
  | Annotation_line_to x1 y1 x2 y2 => real_ok x1 && real_ok y1 && real_ok x2 && real_ok y2
  | Annotation_file_spec calls => FileSpec_ok calls
  | Annotation_icon icon => AnnotationIcon_ok icon
  | Annotation_appearance_characteristics calls => AppearanceCharacteristics_ok calls
  | Annotation_parent id => ref_ok id
  | Annotation_associated_files items => forallb FileSpec_ok items
  end.
Definition Annotation_reads (cs : Annotation_calls) : val -> Prop := writer_reads Annotation_head Annotation_doc cs.
Definition Annotation_ok (cs : Annotation_calls) : bool := forallb (raw_ok Annotation_call_ok) cs.

(** A sample: every method once. *)
Definition Annotation_sample : Annotation_calls := [
  Typed (Annotation_subtype AnnotationType_Screen); Typed (Annotation_rect (mkRect f32_zero f32_zero (FFin false 8388608 (-23)) (FFin false 8388608 (-23)))); Typed (Annotation_contents (TextPlain [97; 128512])); Typed (Annotation_page 7); Typed (Annotation_name (TextPlain [97; 128512])); Typed (Annotation_modified (date_new 2024)); Typed (Annotation_flags [AnnotationFlags_ToggleNoView; AnnotationFlags_LockedContents]); Typed (Annotation_appearance Appearance_sample); Typed (Annotation_appearance_state (lit "a b")); Typed (Annotation_border (FFin false 8388608 (-23)) (FFin false 8388608 (-23)) (FFin false 8388608 (-23)) (Some [(FFin false 8388608 (-23))])); Typed (Annotation_border_style BorderStyle_sample); Typed Annotation_color_transparent; Typed (Annotation_color_gray (FFin false 8388608 (-23))); Typed (Annotation_color_rgb (FFin false 8388608 (-23)) (FFin false 8388608 (-23)) (FFin false 8388608 (-23))); Typed (Annotation_color_cmyk (FFin false 8388608 (-23)) (FFin false 8388608 (-23)) (FFin false 8388608 (-23)) (FFin false 8388608 (-23))); Typed (Annotation_struct_parent (-3)); Typed (Annotation_action Action_sample); Typed (Annotation_additional_actions AdditionalActions_sample); Typed (Annotation_highlight HighlightEffect_Push); Typed (Annotation_author (TextPlain [97; 128512])); Typed (Annotation_subject (TextPlain [97; 128512])); Typed (Annotation_quad_points [(FFin false 8388608 (-23)); f32_zero]); Typed (Annotation_line_to (FFin false 8388608 (-23)) (FFin false 8388608 (-23)) (FFin false 8388608 (-23)) (FFin false 8388608 (-23))); Typed (Annotation_file_spec FileSpec_sample); Typed (Annotation_icon (AnnotationIcon_Custom (lit "Zz"))); Typed (Annotation_appearance_characteristics AppearanceCharacteristics_sample); Typed (Annotation_parent 7); Typed (Annotation_associated_files [FileSpec_sample; []]); Raw (lit "Extra") (OArray [OPrim (PBool true)])].
