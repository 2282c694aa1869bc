(** Specification of font descriptors, after ISO 32000-1, tables 122 and 124, and the documentation. *)

From Coq Require Import ZArith List Bool.
From Verif Require Import Bytes ModelFloat ModelBuf ModelObject ModelColor ModelSmall ModelPdf ModelTw ModelEnums ModelTwArgs ModelFontDesc SpecLex SpecObj
  SpecText SpecMeans SpecPdf SpecTyped SpecColor SpecSmall SpecTw SpecEnums SpecTwArgs.
Import ListNotations.
Local Open Scope Z_scope.

Definition fd_head : list entry_spec := [(lit "Type", is_name (lit "FontDescriptor"))].
(** Table 124: the class and subclass bytes, then the PANOSE classification: twelve bytes. *)
Definition is_style (class subclass : Byte.byte) (panose : list Byte.byte) : val -> Prop :=
  is_dict [(lit "Panose", fun v => exists s, v = VStr s /\ length s = 12%nat /\ nth 0 s Byte.x00 = class /\ nth 1 s Byte.x00 = subclass /\
    forall i, (i < 10)%nat -> nth (2 + i) s Byte.x00 = nth i panose Byte.x00)].
(** The key of a glyph class in an override dictionary (tables 122 and 123). *)
Definition cjk_name (class : CjkClass) : bytes :=
  match class with
  | CjkClass_Alphabetic => lit "Alphabetic"
  | CjkClass_AlphaNum => lit "AlphaNum"
  | CjkClass_Dingbats => lit "Dingbats"
  | CjkClass_DingbatsRot => lit "DingbatsRot"
  | CjkClass_Generic => lit "Generic"
  | CjkClass_GenericRot => lit "GenericRot"
  | CjkClass_Hangul => lit "Hangul"
  | CjkClass_Hanja => lit "Hanja"
  | CjkClass_Hanzi => lit "Hanzi"
  | CjkClass_HRoman => lit "HRoman"
  | CjkClass_HRomanRot => lit "HRomanRot"
  | CjkClass_HKana => lit "HKana"
  | CjkClass_HKanaRot => lit "HKanaRot"
  | CjkClass_HojoKanji => lit "HojoKanji"
  | CjkClass_Kana => lit "Kana"
  | CjkClass_Kanji => lit "Kanji"
  | CjkClass_Proportional => lit "Proportional"
  | CjkClass_ProportionalRot => lit "ProportionalRot"
  | CjkClass_Ruby => lit "Ruby"
  end.

Fixpoint fd_doc (c : fd_call) : list entry_spec :=
  match c with
  | Fd_name name => [(lit "FontName", is_name name)]
  | Fd_family family => [(lit "FontFamily", is_str family)]
  | Fd_stretch stretch => [(lit "FontStretch", is_FontStretch stretch)]
  | Fd_weight weight => [(lit "FontWeight", is_int weight)]
  | Fd_flags flags => [(lit "Flags", is_flags FontFlags_pos flags)]
  | Fd_bbox bbox => [(lit "FontBBox", is_rect bbox)]
  | Fd_italic_angle angle => [(lit "ItalicAngle", is_real angle)]
  | Fd_ascent ascent => [(lit "Ascent", is_real ascent)]
  | Fd_descent descent => [(lit "Descent", is_real descent)]
  | Fd_leading leading => [(lit "Leading", is_real leading)]
  | Fd_cap_height cap_height => [(lit "CapHeight", is_real cap_height)]
  | Fd_x_height x_height => [(lit "XHeight", is_real x_height)]
  | Fd_stem_v stem_v => [(lit "StemV", is_real stem_v)]
  | Fd_stem_h stem_h => [(lit "StemH", is_real stem_h)]
  | Fd_avg_width avg_width => [(lit "AvgWidth", is_real avg_width)]
  | Fd_max_width max_width => [(lit "MaxWidth", is_real max_width)]
  | Fd_missing_width missing_width => [(lit "MissingWidth", is_real missing_width)]
  | Fd_font_file id => [(lit "FontFile", is_ref id)]
  | Fd_font_file2 id => [(lit "FontFile2", is_ref id)]
  | Fd_font_file3 id => [(lit "FontFile3", is_ref id)]
  | Fd_char_set names => [(lit "CharSet", is_str names)]
  | Fd_cid_set id => [(lit "CIDSet", is_ref id)]
  | Fd_style class subclass panose => [(lit "Style", is_style class subclass panose)]
  | Fd_override calls => [(lit "FD", is_dict (flat_map ov_doc calls))]
  | Fd_raw key o => [(key, means o)]
  end
with ov_doc (c : ov_call) : list entry_spec :=
  match c with
  | Ov_custom_class class calls => [(class, is_dict (fd_head ++ flat_map fd_doc calls))]
  | Ov_custom_class_ref class id => [(class, is_ref id)]
  | Ov_cjk_class class calls => [(cjk_name class, is_dict (fd_head ++ flat_map fd_doc calls))]
  | Ov_cjk_class_ref class id => [(cjk_name class, is_ref id)]
  | Ov_raw key o => [(key, means o)]
  end.
Definition fd_reads (calls : list fd_call) : val -> Prop := is_dict (fd_head ++ flat_map fd_doc calls).

Fixpoint fd_call_ok (c : fd_call) : bool :=
  match c with
  | Fd_name name => name_ok name
  | Fd_family _ => true
  | Fd_stretch _ => true
  | Fd_weight weight => u16_ok weight
  | Fd_flags _ => true
  | Fd_bbox bbox => rect_ok bbox
  | Fd_italic_angle angle => real_ok angle
  | Fd_ascent ascent => real_ok ascent
  | Fd_descent descent => real_ok descent
  | Fd_leading leading => real_ok leading
  | Fd_cap_height cap_height => real_ok cap_height
  | Fd_x_height x_height => real_ok x_height
  | Fd_stem_v stem_v => real_ok stem_v
  | Fd_stem_h stem_h => real_ok stem_h
  | Fd_avg_width avg_width => real_ok avg_width
  | Fd_max_width max_width => real_ok max_width
  | Fd_missing_width missing_width => real_ok missing_width
  | Fd_font_file id => ref_ok id
  | Fd_font_file2 id => ref_ok id
  | Fd_font_file3 id => ref_ok id
  | Fd_char_set _ => true
  | Fd_cid_set id => ref_ok id
  | Fd_style _ _ panose => Nat.eqb (length panose) 10
  | Fd_override calls => forallb ov_call_ok calls
  | Fd_raw key o => name_ok key && obj_arg_ok o
  end
with ov_call_ok (c : ov_call) : bool :=
  match c with
  | Ov_custom_class class calls => name_ok class && forallb fd_call_ok calls
  | Ov_custom_class_ref class id => name_ok class && ref_ok id
  | Ov_cjk_class _ calls => forallb fd_call_ok calls
  | Ov_cjk_class_ref _ id => ref_ok id
  | Ov_raw key o => name_ok key && obj_arg_ok o
  end.
Definition fd_ok (calls : list fd_call) : bool := forallb fd_call_ok calls.
