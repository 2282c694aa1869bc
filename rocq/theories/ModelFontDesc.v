(** Model of src/font.rs:430-657, FontDescriptor and FontDescriptorOverride, which contain each other. *)

From Coq Require Import ZArith List Bool.
From Verif Require Import Bytes ModelFloat ModelBuf ModelObject ModelColor ModelSmall ModelPdf ModelTw ModelEnums ModelTwArgs.
Import ListNotations.
Local Open Scope Z_scope.

(** A call on a font descriptor, or on an override dictionary. The calls made on a writer that a call returns are
    in the call; [Raw] is [Dict::insert] / [Dict::pair] as in ModelTw.v. *)
Inductive fd_call :=
| Fd_name (name : bytes)
| Fd_family (family : bytes)
| Fd_stretch (stretch : FontStretch)
| Fd_weight (weight : Z)
| Fd_flags (flags : list FontFlags)
| Fd_bbox (bbox : rect)
| Fd_italic_angle (angle : f32)
| Fd_ascent (ascent : f32)
| Fd_descent (descent : f32)
| Fd_leading (leading : f32)
| Fd_cap_height (cap_height : f32)
| Fd_x_height (x_height : f32)
| Fd_stem_v (stem_v : f32)
| Fd_stem_h (stem_h : f32)
| Fd_avg_width (avg_width : f32)
| Fd_max_width (max_width : f32)
| Fd_missing_width (missing_width : f32)
| Fd_font_file (id : Z)
| Fd_font_file2 (id : Z)
| Fd_font_file3 (id : Z)
| Fd_char_set (names : bytes)
| Fd_cid_set (id : Z)
| Fd_style (class subclass : Byte.byte) (panose : list Byte.byte)   (* [u8; 10] *)
| Fd_override (calls : list ov_call)
| Fd_raw (key : bytes) (o : obj)
with ov_call :=
| Ov_custom_class (class : bytes) (calls : list fd_call)
| Ov_custom_class_ref (class : bytes) (id : Z)
| Ov_cjk_class (class : CjkClass) (calls : list fd_call)
| Ov_cjk_class_ref (class : CjkClass) (id : Z)
| Ov_raw (key : bytes) (o : obj).

(** src/font.rs:437-441. *)
Definition fd_header : list (bytes * obj) := [(lit "Type", OPrim (PName (lit "FontDescriptor")))].

Fixpoint fd_entries (c : fd_call) : list (bytes * obj) :=
  match c with
  | Fd_name name => [(lit "FontName", OPrim (PName name))]   (* src/font.rs:446-449 *)
  | Fd_family family => [(lit "FontFamily", OPrim (PStr family))]   (* src/font.rs:453-456 *)
  | Fd_stretch stretch => [(lit "FontStretch", OPrim (PName (FontStretch_name stretch)))]   (* src/font.rs:460-463 *)
  | Fd_weight weight => [(lit "FontWeight", OPrim (PInt weight))]   (* src/font.rs:468-471 *)
  | Fd_flags flags => [(lit "Flags", OPrim (PInt (flags_bits FontFlags_bit flags)))]   (* src/font.rs:474-477 *)
  | Fd_bbox bbox => [(lit "FontBBox", OPrim (PRect bbox))]   (* src/font.rs:480-483 *)
  | Fd_italic_angle angle => [(lit "ItalicAngle", OPrim (PReal angle))]   (* src/font.rs:486-489 *)
  | Fd_ascent ascent => [(lit "Ascent", OPrim (PReal ascent))]   (* src/font.rs:492-495 *)
  | Fd_descent descent => [(lit "Descent", OPrim (PReal descent))]   (* src/font.rs:498-501 *)
  | Fd_leading leading => [(lit "Leading", OPrim (PReal leading))]   (* src/font.rs:504-507 *)
  | Fd_cap_height cap_height => [(lit "CapHeight", OPrim (PReal cap_height))]   (* src/font.rs:511-514 *)
  | Fd_x_height x_height => [(lit "XHeight", OPrim (PReal x_height))]   (* src/font.rs:517-520 *)
  | Fd_stem_v stem_v => [(lit "StemV", OPrim (PReal stem_v))]   (* src/font.rs:523-526 *)
  | Fd_stem_h stem_h => [(lit "StemH", OPrim (PReal stem_h))]   (* src/font.rs:529-532 *)
  | Fd_avg_width avg_width => [(lit "AvgWidth", OPrim (PReal avg_width))]   (* src/font.rs:535-538 *)
  | Fd_max_width max_width => [(lit "MaxWidth", OPrim (PReal max_width))]   (* src/font.rs:541-544 *)
  | Fd_missing_width missing_width => [(lit "MissingWidth", OPrim (PReal missing_width))]   (* src/font.rs:547-550 *)
  | Fd_font_file id => [(lit "FontFile", OPrim (PRef id))]   (* src/font.rs:553-556 *)
  | Fd_font_file2 id => [(lit "FontFile2", OPrim (PRef id))]   (* src/font.rs:560-563 *)
  | Fd_font_file3 id => [(lit "FontFile3", OPrim (PRef id))]   (* src/font.rs:567-570 *)
  | Fd_char_set names => [(lit "CharSet", OPrim (PStr names))]   (* src/font.rs:577-580 *)
  | Fd_cid_set id => [(lit "CIDSet", OPrim (PRef id))]   (* src/font.rs:610-613 *)
  | Fd_style class subclass panose => [(lit "Style", ODict [(lit "Panose", OPrim (PStr (class :: subclass :: panose)))])]   (* src/font.rs:590-597 *)
  | Fd_override calls => [(lit "FD", ODict (flat_map ov_entries calls))]   (* src/font.rs:602-604, 626-628 *)
  | Fd_raw key o => [(key, o)]
  end
with ov_entries (c : ov_call) : list (bytes * obj) :=
  match c with
  | Ov_custom_class class calls => [(class, ODict (fd_header ++ flat_map fd_entries calls))]   (* src/font.rs:634-636 *)
  | Ov_custom_class_ref class id => [(class, OPrim (PRef id))]   (* src/font.rs:640-643 *)
  | Ov_cjk_class class calls => [(CjkClass_name class, ODict (fd_header ++ flat_map fd_entries calls))]   (* src/font.rs:646-648 *)
  | Ov_cjk_class_ref class id => [(CjkClass_name class, OPrim (PRef id))]   (* src/font.rs:652-655 *)
  | Ov_raw key o => [(key, o)]
  end.
Definition fd_obj (calls : list fd_call) : obj := ODict (fd_header ++ flat_map fd_entries calls).
