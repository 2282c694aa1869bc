(** Properties of typed writers: fonts. *)

From Coq Require Import ZArith List Bool.
From Verif Require ModelContent ModelCmap.
From Verif Require Import Bytes ModelFloat ModelBuf ModelObject ModelColor ModelSmall ModelPdf ModelTw ModelEnums ModelRoles ModelTwArgs ModelTwFiles ModelTwGraphics ModelTwAnnot ModelTwForms ModelTwAttr ModelTwXObj ModelTwFonts ModelChunk SpecLex SpecObj SpecText SpecMeans SpecPdf SpecTyped SpecColor SpecSmall SpecTw SpecEnums SpecRoles SpecTwArgs SpecTwFiles SpecTwGraphics SpecTwAnnot SpecTwForms SpecTwAttr SpecTwXObj SpecTwFonts SpecChunk ProofTyped ProofColor ProofTw ProofEnums ProofTwArgs ProofTwFiles ProofTwGraphics ProofTwAnnot ProofTwForms ProofTwAttr ProofTwXObj ProofTwFonts.
Import ListNotations.
Local Open Scope Z_scope.

(** ** Encoding *)

Theorem C53_encoding : forall calls, Encoding_ok calls = true -> reads (Encoding_obj calls) (Encoding_reads calls).
Proof. intros cs H. apply good_reads. apply good_Encoding. exact H. Qed.
Example encoding_case : Encoding_ok Encoding_sample = true.
Proof. vm_compute. reflexivity. Qed.

(** ** Type1Font *)

Theorem C53_type1_font : forall calls, Type1Font_ok calls = true -> reads (Type1Font_obj calls) (Type1Font_reads calls).
Proof. intros cs H. apply good_reads. apply good_Type1Font. exact H. Qed.
Example type1_font_case : Type1Font_ok Type1Font_sample = true.
Proof. vm_compute. reflexivity. Qed.

(** ** Type3Font *)

Theorem C53_type3_font : forall calls, Type3Font_ok calls = true -> reads (Type3Font_obj calls) (Type3Font_reads calls).
Proof. intros cs H. apply good_reads. apply good_Type3Font. exact H. Qed.
Example type3_font_case : Type3Font_ok Type3Font_sample = true.
Proof. vm_compute. reflexivity. Qed.

(** ** Type0Font *)

Theorem C53_type0_font : forall calls, Type0Font_ok calls = true -> reads (Type0Font_obj calls) (Type0Font_reads calls).
Proof. intros cs H. apply good_reads. apply good_Type0Font. exact H. Qed.
Example type0_font_case : Type0Font_ok Type0Font_sample = true.
Proof. vm_compute. reflexivity. Qed.

(** ** CidFont *)

Theorem C53_cid_font : forall calls, CidFont_ok calls = true -> reads (CidFont_obj calls) (CidFont_reads calls).
Proof. intros cs H. apply good_reads. apply good_CidFont. exact H. Qed.
Example cid_font_case : CidFont_ok CidFont_sample = true.
Proof. vm_compute. reflexivity. Qed.

(** ** Cmap *)

Theorem C53_cmap : forall calls es, Cmap_ok calls = true -> Cmap_dict calls = Some es -> stream_reads es (Cmap_reads calls).
Proof. intros cs es H E. apply good_stream_reads. apply good_Cmap; assumption. Qed.
Theorem C44_cmap : forall calls, Cmap_dict calls <> None <-> Cmap_allowed calls.
Proof. exact Cmap_dict_none. Qed.
Example cmap_case : Cmap_ok Cmap_sample = true /\ Cmap_dict Cmap_sample <> None.
Proof. vm_compute. split; [reflexivity|discriminate]. Qed.

Print Assumptions C53_encoding.
Print Assumptions C53_type1_font.
Print Assumptions C53_type3_font.
Print Assumptions C53_type0_font.
Print Assumptions C53_cid_font.
Print Assumptions C53_cmap.
Print Assumptions C44_cmap.
