(** Model of typed writers: fonts.  Generated by gen/gen_writers.py from the source text. *)

From Coq Require Import ZArith List Bool.
From Verif Require ModelContent ModelCmap.
From Verif Require Import Bytes ModelFloat ModelBuf ModelObject ModelColor ModelSmall ModelPdf ModelTw ModelEnums ModelRoles ModelTwArgs ModelTwFiles ModelTwGraphics ModelTwAnnot ModelTwForms ModelTwAttr ModelTwXObj.
Import ListNotations.
Local Open Scope Z_scope.

(** ** Encoding (src/font.rs) *)

Inductive Encoding_call :=
| Encoding_base_encoding (name : bytes)
| Encoding_differences (x : list (Z * list bytes)).
Definition Encoding_entries (c : Encoding_call) : list (bytes * obj) :=
  match c with
  | Encoding_base_encoding name => [(lit "BaseEncoding", OPrim (PName name))]   (* src/font.rs:214-217 *)
  | Encoding_differences x => [(lit "Differences", diff_obj x)]   (* src/font.rs:220-222 *)
  end.
(** src/font.rs:205-209. *)
Definition Encoding_header : list (bytes * obj) := [(lit "Type", OPrim (PName (lit "Encoding")))].
Definition Encoding_calls : Type := list (or_raw Encoding_call).
Definition Encoding_obj (cs : Encoding_calls) : obj := dict_writer Encoding_header Encoding_entries cs.

(** ** Type1Font (src/font.rs) *)

Inductive Type1Font_call :=
| Type1Font_name (name : bytes)
| Type1Font_base_font (name : bytes)
| Type1Font_first_char (first : Z)
| Type1Font_last_char (last : Z)
| Type1Font_widths (widths : list f32)
| Type1Font_font_descriptor (id : Z)
| Type1Font_encoding_predefined (encoding : bytes)
| Type1Font_encoding_custom (calls : Encoding_calls)
| Type1Font_to_unicode (id : Z).
Definition Type1Font_entries (c : Type1Font_call) : list (bytes * obj) :=
  match c with
  | Type1Font_name name => [(lit "Name", OPrim (PName name))]   (* src/font.rs:22-25 *)
  | Type1Font_base_font name => [(lit "BaseFont", OPrim (PName name))]   (* src/font.rs:32-35 *)
  | Type1Font_first_char first => [(lit "FirstChar", OPrim (PInt first))]   (* src/font.rs:40-43 *)
  | Type1Font_last_char last => [(lit "LastChar", OPrim (PInt last))]   (* src/font.rs:48-51 *)
  | Type1Font_widths widths => [(lit "Widths", reals widths)]   (* src/font.rs:55-58 *)
  | Type1Font_font_descriptor id => [(lit "FontDescriptor", OPrim (PRef id))]   (* src/font.rs:62-65 *)
  | Type1Font_encoding_predefined encoding => [(lit "Encoding", OPrim (PName encoding))]   (* src/font.rs:69-72 *)
  | Type1Font_encoding_custom calls => [(lit "Encoding", Encoding_obj calls)]   (* src/font.rs:76-78 *)
  | Type1Font_to_unicode id => [(lit "ToUnicode", OPrim (PRef id))]   (* src/font.rs:83-86 *)
  end.
(** src/font.rs:11-16. *)
Definition Type1Font_header : list (bytes * obj) := [(lit "Type", OPrim (PName (lit "Font"))); (lit "Subtype", OPrim (PName (lit "Type1")))].
Definition Type1Font_calls : Type := list (or_raw Type1Font_call).
Definition Type1Font_obj (cs : Type1Font_calls) : obj := dict_writer Type1Font_header Type1Font_entries cs.

(** ** Type3Font (src/font.rs) *)

Inductive Type3Font_call :=
| Type3Font_name (name : bytes)
| Type3Font_bbox (bbox : rect)
| Type3Font_matrix (matrix : f6)
| Type3Font_char_procs (items : list (bytes * Z))
| Type3Font_encoding_predefined (encoding : bytes)
| Type3Font_encoding_custom (calls : Encoding_calls)
| Type3Font_first_char (first : Z)
| Type3Font_last_char (last : Z)
| Type3Font_widths (widths : list f32)
| Type3Font_font_descriptor (id : Z)
| Type3Font_resources (calls : Resources_calls)
| Type3Font_to_unicode (id : Z).
Definition Type3Font_entries (c : Type3Font_call) : list (bytes * obj) :=
  match c with
  | Type3Font_name name => [(lit "Name", OPrim (PName name))]   (* src/font.rs:109-112 *)
  | Type3Font_bbox bbox => [(lit "FontBBox", OPrim (PRect bbox))]   (* src/font.rs:115-118 *)
  | Type3Font_matrix matrix => [(lit "FontMatrix", reals (l6 matrix))]   (* src/font.rs:122-125 *)
  | Type3Font_char_procs items => [(lit "CharProcs", dict_of (fun r => OPrim (PRef r)) items)]   (* src/font.rs:133-135 *)
  | Type3Font_encoding_predefined encoding => [(lit "Encoding", OPrim (PName encoding))]   (* src/font.rs:139-142 *)
  | Type3Font_encoding_custom calls => [(lit "Encoding", Encoding_obj calls)]   (* src/font.rs:146-148 *)
  | Type3Font_first_char first => [(lit "FirstChar", OPrim (PInt first))]   (* src/font.rs:152-155 *)
  | Type3Font_last_char last => [(lit "LastChar", OPrim (PInt last))]   (* src/font.rs:159-162 *)
  | Type3Font_widths widths => [(lit "Widths", reals widths)]   (* src/font.rs:166-169 *)
  | Type3Font_font_descriptor id => [(lit "FontDescriptor", OPrim (PRef id))]   (* src/font.rs:172-175 *)
  | Type3Font_resources calls => [(lit "Resources", Resources_obj calls)]   (* src/font.rs:178-180 *)
  | Type3Font_to_unicode id => [(lit "ToUnicode", OPrim (PRef id))]   (* src/font.rs:189-192 *)
  end.
(** src/font.rs:98-103. *)
Definition Type3Font_header : list (bytes * obj) := [(lit "Type", OPrim (PName (lit "Font"))); (lit "Subtype", OPrim (PName (lit "Type3")))].
Definition Type3Font_calls : Type := list (or_raw Type3Font_call).
Definition Type3Font_obj (cs : Type3Font_calls) : obj := dict_writer Type3Font_header Type3Font_entries cs.

(** ** Type0Font (src/font.rs) *)

Inductive Type0Font_call :=
| Type0Font_base_font (name : bytes)
| Type0Font_encoding_predefined (encoding : bytes)
| Type0Font_encoding_cmap (cmap : Z)
| Type0Font_descendant_font (cid_font : Z)
| Type0Font_to_unicode (cmap : Z).
Definition Type0Font_entries (c : Type0Font_call) : list (bytes * obj) :=
  match c with
  | Type0Font_base_font name => [(lit "BaseFont", OPrim (PName name))]   (* src/font.rs:271-274 *)
  | Type0Font_encoding_predefined encoding => [(lit "Encoding", OPrim (PName encoding))]   (* src/font.rs:278-281 *)
  | Type0Font_encoding_cmap cmap => [(lit "Encoding", OPrim (PRef cmap))]   (* src/font.rs:286-289 *)
  | Type0Font_descendant_font cid_font => [(lit "DescendantFonts", refs [cid_font])]   (* src/font.rs:293-296 *)
  | Type0Font_to_unicode cmap => [(lit "ToUnicode", OPrim (PRef cmap))]   (* src/font.rs:301-304 *)
  end.
(** src/font.rs:261-266. *)
Definition Type0Font_header : list (bytes * obj) := [(lit "Type", OPrim (PName (lit "Font"))); (lit "Subtype", OPrim (PName (lit "Type0")))].
Definition Type0Font_calls : Type := list (or_raw Type0Font_call).
Definition Type0Font_obj (cs : Type0Font_calls) : obj := dict_writer Type0Font_header Type0Font_entries cs.

(** ** CidFont (src/font.rs) *)

Inductive CidFont_call :=
| CidFont_subtype (subtype : CidFontType)
| CidFont_base_font (name : bytes)
| CidFont_system_info (info : ModelCmap.system_info)
| CidFont_font_descriptor (id : Z)
| CidFont_default_width (width : f32)
| CidFont_widths (x : list width_call)
| CidFont_cid_to_gid_map_predefined (name : bytes)
| CidFont_cid_to_gid_map_stream (stream : Z).
Definition CidFont_entries (c : CidFont_call) : list (bytes * obj) :=
  match c with
  | CidFont_subtype subtype => [(lit "Subtype", OPrim (PName (CidFontType_name subtype)))]   (* src/font.rs:324-327 *)
  | CidFont_base_font name => [(lit "BaseFont", OPrim (PName name))]   (* src/font.rs:330-333 *)
  | CidFont_system_info info => [(lit "CIDSystemInfo", system_info_obj info)]   (* src/font.rs:336-339 *)
  | CidFont_font_descriptor id => [(lit "FontDescriptor", OPrim (PRef id))]   (* src/font.rs:342-345 *)
  | CidFont_default_width width => [(lit "DW", OPrim (PReal width))]   (* src/font.rs:348-351 *)
  | CidFont_widths x => [(lit "W", width_obj x)]   (* src/font.rs:354-356 *)
  | CidFont_cid_to_gid_map_predefined name => [(lit "CIDToGIDMap", OPrim (PName name))]   (* src/font.rs:363-366 *)
  | CidFont_cid_to_gid_map_stream stream => [(lit "CIDToGIDMap", OPrim (PRef stream))]   (* src/font.rs:372-375 *)
  end.
(** src/font.rs:316-320. *)
Definition CidFont_header : list (bytes * obj) := [(lit "Type", OPrim (PName (lit "Font")))].
Definition CidFont_calls : Type := list (or_raw CidFont_call).
Definition CidFont_obj (cs : CidFont_calls) : obj := dict_writer CidFont_header CidFont_entries cs.

(** ** Cmap (src/font.rs) *)

Inductive Cmap_call :=
| Cmap_name (name : bytes)
| Cmap_system_info (info : ModelCmap.system_info)
| Cmap_writing_mode (mode : ModelCmap.wmode)
| Cmap_use_cmap_stream (cmap : Z)
| Cmap_use_cmap_predefined (name : bytes).
Definition Cmap_entries (c : Cmap_call) : option (list (bytes * obj)) :=
  match c with
  | Cmap_name name => Some [(lit "CMapName", OPrim (PName name))]   (* src/font.rs:784-787 *)
  | Cmap_system_info info => Some [(lit "CIDSystemInfo", system_info_obj info)]   (* src/font.rs:790-793 *)
  | Cmap_writing_mode mode => Some [(lit "WMode", OPrim (PInt (ModelCmap.wmode_int mode)))]   (* src/font.rs:802-805 *)
  | Cmap_use_cmap_stream cmap => Some [(lit "UseCMap", OPrim (PRef cmap))]   (* src/font.rs:814-817 *)
  | Cmap_use_cmap_predefined name => Some [(lit "UseCMap", OPrim (PName name))]   (* src/font.rs:824-827 *)
  end.
(** src/font.rs:778-781. *)
Definition Cmap_header : list (bytes * obj) := [(lit "Type", OPrim (PName (lit "CMap")))].
Definition Cmap_calls : Type := list (or_stream Stream_call Cmap_call).
Definition Cmap_dict (cs : Cmap_calls) : option (list (bytes * obj)) := stream_writer Stream_entries Cmap_header Cmap_entries cs.
