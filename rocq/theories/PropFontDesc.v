(** C53: font descriptors. *)

From Coq Require Import ZArith List Bool.
From Verif Require Import Bytes ModelFloat ModelBuf ModelObject ModelColor ModelSmall ModelPdf ModelTw ModelEnums ModelTwArgs ModelFontDesc SpecLex SpecObj
  SpecText SpecMeans SpecPdf SpecTyped SpecColor SpecSmall SpecTw SpecEnums SpecTwArgs SpecFontDesc
  ProofTw ProofFontDesc.
Import ListNotations.
Local Open Scope Z_scope.

(** However deeply overrides and descriptors are nested. *)
Theorem C53_font_descriptor : forall calls, fd_ok calls = true -> reads (fd_obj calls) (fd_reads calls).
Proof. intros l H. apply good_reads. apply good_fd. exact H. Qed.
Definition fd_sample : list fd_call := [
  Fd_name (lit "AB"); Fd_family (lit "x)"); Fd_stretch FontStretch_Expanded; Fd_weight 400; Fd_flags [FontFlags_Serif; FontFlags_ForceBold];
  Fd_bbox (mkRect f32_zero f32_zero f32_zero f32_zero); Fd_italic_angle f32_zero; Fd_font_file2 4; Fd_cid_set 5;
  Fd_style Byte.x01 Byte.x02 (lit "0123456789");
  Fd_override [Ov_cjk_class CjkClass_Kanji [Fd_ascent f32_zero; Fd_override [Ov_custom_class (lit "Z") []]]; Ov_cjk_class_ref CjkClass_Kana 8;
    Ov_raw (lit "K") (OArray [])]].
Example fd_case : fd_ok fd_sample = true.
Proof. vm_compute. reflexivity. Qed.
(** The key of a glyph class determines the class. *)
Example cjk_case : forall c, by_name (cjk_name c) CjkClass_table = Some c.
Proof. destruct c; reflexivity. Qed.

Print Assumptions C53_font_descriptor.
