(** Proofs about typed writers: fonts.  Generated by gen/gen_writers.py. *)

From Coq Require Import ZArith List Bool.
From Verif Require ModelContent ModelCmap.
From Verif Require Import Bytes ModelFloat ModelBuf ModelObject ModelColor ModelSmall ModelPdf ModelTw ModelEnums ModelRoles ModelTwArgs ModelTwFiles ModelTwGraphics ModelTwAnnot ModelTwForms ModelTwAttr ModelTwXObj ModelTwFonts SpecLex SpecObj SpecText SpecMeans SpecPdf SpecTyped SpecColor SpecSmall SpecTw SpecEnums SpecRoles SpecTwArgs SpecTwFiles SpecTwGraphics SpecTwAnnot SpecTwForms SpecTwAttr SpecTwXObj SpecTwFonts ProofTyped ProofColor ProofTw ProofEnums ProofTwArgs ProofTwFiles ProofTwGraphics ProofTwAnnot ProofTwForms ProofTwAttr ProofTwXObj.
Import ListNotations.
Local Open Scope Z_scope.

Lemma Encoding_head_good : good_entries Encoding_header Encoding_head.
Proof. unfold Encoding_header, Encoding_head. tw_entries. Qed.
Lemma Encoding_good c : Encoding_call_ok c = true -> good_entries (Encoding_entries c) (Encoding_doc c).
Proof. destruct c; cbn [Encoding_entries Encoding_doc Encoding_call_ok]; tw_call. Qed.
Lemma good_Encoding cs : Encoding_ok cs = true -> good (Encoding_obj cs) (Encoding_reads cs).
Proof. intro H. eapply good_writer; [exact Encoding_head_good|exact Encoding_good|exact H]. Qed.
#[export] Hint Resolve good_Encoding : tw.
#[export] Hint Resolve Encoding_head_good Encoding_good : twh.
#[export] Hint Extern 1 (good (arr_of Encoding_obj _) _) => apply (good_arr_of Encoding_obj Encoding_reads Encoding_ok _ good_Encoding) : tw.
#[export] Hint Extern 1 (good (dict_of Encoding_obj _) _) => apply (good_dict_of Encoding_obj Encoding_reads Encoding_ok _ good_Encoding) : tw.

Lemma Type1Font_head_good : good_entries Type1Font_header Type1Font_head.
Proof. unfold Type1Font_header, Type1Font_head. tw_entries. Qed.
Lemma Type1Font_good c : Type1Font_call_ok c = true -> good_entries (Type1Font_entries c) (Type1Font_doc c).
Proof. destruct c; cbn [Type1Font_entries Type1Font_doc Type1Font_call_ok]; tw_call. Qed.
Lemma good_Type1Font cs : Type1Font_ok cs = true -> good (Type1Font_obj cs) (Type1Font_reads cs).
Proof. intro H. eapply good_writer; [exact Type1Font_head_good|exact Type1Font_good|exact H]. Qed.
#[export] Hint Resolve good_Type1Font : tw.
#[export] Hint Resolve Type1Font_head_good Type1Font_good : twh.
#[export] Hint Extern 1 (good (arr_of Type1Font_obj _) _) => apply (good_arr_of Type1Font_obj Type1Font_reads Type1Font_ok _ good_Type1Font) : tw.
#[export] Hint Extern 1 (good (dict_of Type1Font_obj _) _) => apply (good_dict_of Type1Font_obj Type1Font_reads Type1Font_ok _ good_Type1Font) : tw.

Lemma Type3Font_head_good : good_entries Type3Font_header Type3Font_head.
Proof. unfold Type3Font_header, Type3Font_head. tw_entries. Qed.
Lemma Type3Font_good c : Type3Font_call_ok c = true -> good_entries (Type3Font_entries c) (Type3Font_doc c).
Proof. destruct c; cbn [Type3Font_entries Type3Font_doc Type3Font_call_ok]; tw_call. Qed.
Lemma good_Type3Font cs : Type3Font_ok cs = true -> good (Type3Font_obj cs) (Type3Font_reads cs).
Proof. intro H. eapply good_writer; [exact Type3Font_head_good|exact Type3Font_good|exact H]. Qed.
#[export] Hint Resolve good_Type3Font : tw.
#[export] Hint Resolve Type3Font_head_good Type3Font_good : twh.
#[export] Hint Extern 1 (good (arr_of Type3Font_obj _) _) => apply (good_arr_of Type3Font_obj Type3Font_reads Type3Font_ok _ good_Type3Font) : tw.
#[export] Hint Extern 1 (good (dict_of Type3Font_obj _) _) => apply (good_dict_of Type3Font_obj Type3Font_reads Type3Font_ok _ good_Type3Font) : tw.

Lemma Type0Font_head_good : good_entries Type0Font_header Type0Font_head.
Proof. unfold Type0Font_header, Type0Font_head. tw_entries. Qed.
Lemma Type0Font_good c : Type0Font_call_ok c = true -> good_entries (Type0Font_entries c) (Type0Font_doc c).
Proof. destruct c; cbn [Type0Font_entries Type0Font_doc Type0Font_call_ok]; tw_call. Qed.
Lemma good_Type0Font cs : Type0Font_ok cs = true -> good (Type0Font_obj cs) (Type0Font_reads cs).
Proof. intro H. eapply good_writer; [exact Type0Font_head_good|exact Type0Font_good|exact H]. Qed.
#[export] Hint Resolve good_Type0Font : tw.
#[export] Hint Resolve Type0Font_head_good Type0Font_good : twh.
#[export] Hint Extern 1 (good (arr_of Type0Font_obj _) _) => apply (good_arr_of Type0Font_obj Type0Font_reads Type0Font_ok _ good_Type0Font) : tw.
#[export] Hint Extern 1 (good (dict_of Type0Font_obj _) _) => apply (good_dict_of Type0Font_obj Type0Font_reads Type0Font_ok _ good_Type0Font) : tw.

Lemma CidFont_head_good : good_entries CidFont_header CidFont_head.
Proof. unfold CidFont_header, CidFont_head. tw_entries. Qed.
Lemma CidFont_good c : CidFont_call_ok c = true -> good_entries (CidFont_entries c) (CidFont_doc c).
Proof. destruct c; cbn [CidFont_entries CidFont_doc CidFont_call_ok]; tw_call. Qed.
Lemma good_CidFont cs : CidFont_ok cs = true -> good (CidFont_obj cs) (CidFont_reads cs).
Proof. intro H. eapply good_writer; [exact CidFont_head_good|exact CidFont_good|exact H]. Qed.
#[export] Hint Resolve good_CidFont : tw.
#[export] Hint Resolve CidFont_head_good CidFont_good : twh.
#[export] Hint Extern 1 (good (arr_of CidFont_obj _) _) => apply (good_arr_of CidFont_obj CidFont_reads CidFont_ok _ good_CidFont) : tw.
#[export] Hint Extern 1 (good (dict_of CidFont_obj _) _) => apply (good_dict_of CidFont_obj CidFont_reads CidFont_ok _ good_CidFont) : tw.

Lemma Cmap_good c es : Cmap_call_ok c = true -> Cmap_entries c = Some es -> good_entries es (Cmap_doc c).
Proof. destruct c; cbn [Cmap_entries Cmap_doc Cmap_call_ok]; tw_call_opt. Qed.
Lemma Cmap_none c : Cmap_entries c <> None <-> Cmap_call_allowed c.
Proof. destruct c; cbn [Cmap_entries Cmap_call_allowed]; tw_none. Qed.
Lemma Cmap_head_good : good_entries Cmap_header Cmap_head.
Proof. unfold Cmap_header, Cmap_head. tw_entries. Qed.
Lemma good_Cmap cs es : Cmap_ok cs = true -> Cmap_dict cs = Some es -> good_entries es (Cmap_reads cs).
Proof. intros H E. eapply good_stream; [exact Cmap_head_good|exact Stream_good|exact Cmap_good|exact H|exact E]. Qed.
Lemma Cmap_dict_none cs : Cmap_dict cs <> None <-> Cmap_allowed cs.
Proof. apply stream_none; [exact Stream_none|exact Cmap_none]. Qed.
