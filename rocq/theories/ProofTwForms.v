(** Proofs about typed writers: interactive forms and signatures.  Generated by gen/gen_writers.py. *)

From Coq Require Import ZArith List Bool.
From Verif Require ModelContent ModelCmap.
From Verif Require Import Bytes ModelFloat ModelBuf ModelObject ModelColor ModelSmall ModelPdf ModelTw ModelEnums ModelRoles ModelTwArgs ModelTwFiles ModelTwGraphics ModelTwAnnot ModelTwForms SpecLex SpecObj SpecText SpecMeans SpecPdf SpecTyped SpecColor SpecSmall SpecTw SpecEnums SpecRoles SpecTwArgs SpecTwFiles SpecTwGraphics SpecTwAnnot SpecTwForms ProofTyped ProofColor ProofTw ProofEnums ProofTwArgs ProofTwFiles ProofTwGraphics ProofTwAnnot.
Import ListNotations.
Local Open Scope Z_scope.

Lemma ChoiceOptions_good c : ChoiceOptions_call_ok c = true -> Forall2 good (ChoiceOptions_items c) (ChoiceOptions_doc c).
Proof. destruct c; cbn [ChoiceOptions_items ChoiceOptions_doc ChoiceOptions_call_ok]; tw_items_call. Qed.
Lemma good_ChoiceOptions cs : ChoiceOptions_ok cs = true -> good (ChoiceOptions_obj cs) (ChoiceOptions_reads cs).
Proof. intro H. eapply good_array_writer; [exact ChoiceOptions_good|exact H]. Qed.
#[export] Hint Resolve good_ChoiceOptions : tw.

#[export] Hint Extern 1 (good (arr_of ChoiceOptions_obj _) _) => apply (good_arr_of ChoiceOptions_obj ChoiceOptions_reads ChoiceOptions_ok _ good_ChoiceOptions) : tw.
#[export] Hint Extern 1 (good (dict_of ChoiceOptions_obj _) _) => apply (good_dict_of ChoiceOptions_obj ChoiceOptions_reads ChoiceOptions_ok _ good_ChoiceOptions) : tw.

Lemma SignatureFieldLock_head_good : good_entries SignatureFieldLock_header SignatureFieldLock_head.
Proof. unfold SignatureFieldLock_header, SignatureFieldLock_head. tw_entries. Qed.
Lemma SignatureFieldLock_good c : SignatureFieldLock_call_ok c = true -> good_entries (SignatureFieldLock_entries c) (SignatureFieldLock_doc c).
Proof. destruct c; cbn [SignatureFieldLock_entries SignatureFieldLock_doc SignatureFieldLock_call_ok]; tw_call. Qed.
Lemma good_SignatureFieldLock cs : SignatureFieldLock_ok cs = true -> good (SignatureFieldLock_obj cs) (SignatureFieldLock_reads cs).
Proof. intro H. eapply good_writer; [exact SignatureFieldLock_head_good|exact SignatureFieldLock_good|exact H]. Qed.
#[export] Hint Resolve good_SignatureFieldLock : tw.
#[export] Hint Resolve SignatureFieldLock_head_good SignatureFieldLock_good : twh.
#[export] Hint Extern 1 (good (arr_of SignatureFieldLock_obj _) _) => apply (good_arr_of SignatureFieldLock_obj SignatureFieldLock_reads SignatureFieldLock_ok _ good_SignatureFieldLock) : tw.
#[export] Hint Extern 1 (good (dict_of SignatureFieldLock_obj _) _) => apply (good_dict_of SignatureFieldLock_obj SignatureFieldLock_reads SignatureFieldLock_ok _ good_SignatureFieldLock) : tw.

Lemma SignatureModificationDetectionPrevention_head_good : good_entries SignatureModificationDetectionPrevention_header SignatureModificationDetectionPrevention_head.
Proof. unfold SignatureModificationDetectionPrevention_header, SignatureModificationDetectionPrevention_head. tw_entries. Qed.
Lemma SignatureModificationDetectionPrevention_good c : SignatureModificationDetectionPrevention_call_ok c = true -> good_entries (SignatureModificationDetectionPrevention_entries c) (SignatureModificationDetectionPrevention_doc c).
Proof. destruct c; cbn [SignatureModificationDetectionPrevention_entries SignatureModificationDetectionPrevention_doc SignatureModificationDetectionPrevention_call_ok]; tw_call. Qed.
Lemma good_SignatureModificationDetectionPrevention cs : SignatureModificationDetectionPrevention_ok cs = true -> good (SignatureModificationDetectionPrevention_obj cs) (SignatureModificationDetectionPrevention_reads cs).
Proof. intro H. eapply good_writer; [exact SignatureModificationDetectionPrevention_head_good|exact SignatureModificationDetectionPrevention_good|exact H]. Qed.
#[export] Hint Resolve good_SignatureModificationDetectionPrevention : tw.
#[export] Hint Resolve SignatureModificationDetectionPrevention_head_good SignatureModificationDetectionPrevention_good : twh.
#[export] Hint Extern 1 (good (arr_of SignatureModificationDetectionPrevention_obj _) _) => apply (good_arr_of SignatureModificationDetectionPrevention_obj SignatureModificationDetectionPrevention_reads SignatureModificationDetectionPrevention_ok _ good_SignatureModificationDetectionPrevention) : tw.
#[export] Hint Extern 1 (good (dict_of SignatureModificationDetectionPrevention_obj _) _) => apply (good_dict_of SignatureModificationDetectionPrevention_obj SignatureModificationDetectionPrevention_reads SignatureModificationDetectionPrevention_ok _ good_SignatureModificationDetectionPrevention) : tw.

Lemma SignatureTimeStamp_head_good : good_entries SignatureTimeStamp_header SignatureTimeStamp_head.
Proof. unfold SignatureTimeStamp_header, SignatureTimeStamp_head. tw_entries. Qed.
Lemma SignatureTimeStamp_good c : SignatureTimeStamp_call_ok c = true -> good_entries (SignatureTimeStamp_entries c) (SignatureTimeStamp_doc c).
Proof. destruct c; cbn [SignatureTimeStamp_entries SignatureTimeStamp_doc SignatureTimeStamp_call_ok]; tw_call. Qed.
Lemma good_SignatureTimeStamp cs : SignatureTimeStamp_ok cs = true -> good (SignatureTimeStamp_obj cs) (SignatureTimeStamp_reads cs).
Proof. intro H. eapply good_writer; [exact SignatureTimeStamp_head_good|exact SignatureTimeStamp_good|exact H]. Qed.
#[export] Hint Resolve good_SignatureTimeStamp : tw.
#[export] Hint Resolve SignatureTimeStamp_head_good SignatureTimeStamp_good : twh.
#[export] Hint Extern 1 (good (arr_of SignatureTimeStamp_obj _) _) => apply (good_arr_of SignatureTimeStamp_obj SignatureTimeStamp_reads SignatureTimeStamp_ok _ good_SignatureTimeStamp) : tw.
#[export] Hint Extern 1 (good (dict_of SignatureTimeStamp_obj _) _) => apply (good_dict_of SignatureTimeStamp_obj SignatureTimeStamp_reads SignatureTimeStamp_ok _ good_SignatureTimeStamp) : tw.

Lemma CertificateSeedValue_head_good : good_entries CertificateSeedValue_header CertificateSeedValue_head.
Proof. unfold CertificateSeedValue_header, CertificateSeedValue_head. tw_entries. Qed.
Lemma CertificateSeedValue_good c : CertificateSeedValue_call_ok c = true -> good_entries (CertificateSeedValue_entries c) (CertificateSeedValue_doc c).
Proof. destruct c; cbn [CertificateSeedValue_entries CertificateSeedValue_doc CertificateSeedValue_call_ok]; tw_call. Qed.
Lemma good_CertificateSeedValue cs : CertificateSeedValue_ok cs = true -> good (CertificateSeedValue_obj cs) (CertificateSeedValue_reads cs).
Proof. intro H. eapply good_writer; [exact CertificateSeedValue_head_good|exact CertificateSeedValue_good|exact H]. Qed.
#[export] Hint Resolve good_CertificateSeedValue : tw.
#[export] Hint Resolve CertificateSeedValue_head_good CertificateSeedValue_good : twh.
#[export] Hint Extern 1 (good (arr_of CertificateSeedValue_obj _) _) => apply (good_arr_of CertificateSeedValue_obj CertificateSeedValue_reads CertificateSeedValue_ok _ good_CertificateSeedValue) : tw.
#[export] Hint Extern 1 (good (dict_of CertificateSeedValue_obj _) _) => apply (good_dict_of CertificateSeedValue_obj CertificateSeedValue_reads CertificateSeedValue_ok _ good_CertificateSeedValue) : tw.

Lemma SignatureSeedValue_head_good : good_entries SignatureSeedValue_header SignatureSeedValue_head.
Proof. unfold SignatureSeedValue_header, SignatureSeedValue_head. tw_entries. Qed.
Lemma SignatureSeedValue_good c : SignatureSeedValue_call_ok c = true -> good_entries (SignatureSeedValue_entries c) (SignatureSeedValue_doc c).
Proof. destruct c; cbn [SignatureSeedValue_entries SignatureSeedValue_doc SignatureSeedValue_call_ok]; tw_call. Qed.
Lemma good_SignatureSeedValue cs : SignatureSeedValue_ok cs = true -> good (SignatureSeedValue_obj cs) (SignatureSeedValue_reads cs).
Proof. intro H. eapply good_writer; [exact SignatureSeedValue_head_good|exact SignatureSeedValue_good|exact H]. Qed.
#[export] Hint Resolve good_SignatureSeedValue : tw.
#[export] Hint Resolve SignatureSeedValue_head_good SignatureSeedValue_good : twh.
#[export] Hint Extern 1 (good (arr_of SignatureSeedValue_obj _) _) => apply (good_arr_of SignatureSeedValue_obj SignatureSeedValue_reads SignatureSeedValue_ok _ good_SignatureSeedValue) : tw.
#[export] Hint Extern 1 (good (dict_of SignatureSeedValue_obj _) _) => apply (good_dict_of SignatureSeedValue_obj SignatureSeedValue_reads SignatureSeedValue_ok _ good_SignatureSeedValue) : tw.

Lemma Field_head_good : good_entries Field_header Field_head.
Proof. unfold Field_header, Field_head. tw_entries. Qed.
Lemma Field_good c : Field_call_ok c = true -> good_entries (Field_entries c) (Field_doc c).
Proof. destruct c; cbn [Field_entries Field_doc Field_call_ok]; tw_call. Qed.
Lemma good_Field cs : Field_ok cs = true -> good (Field_obj cs) (Field_reads cs).
Proof. intro H. eapply good_writer; [exact Field_head_good|exact Field_good|exact H]. Qed.
#[export] Hint Resolve good_Field : tw.
#[export] Hint Resolve Field_head_good Field_good : twh.
#[export] Hint Extern 1 (good (arr_of Field_obj _) _) => apply (good_arr_of Field_obj Field_reads Field_ok _ good_Field) : tw.
#[export] Hint Extern 1 (good (dict_of Field_obj _) _) => apply (good_dict_of Field_obj Field_reads Field_ok _ good_Field) : tw.

Lemma Form_head_good : good_entries Form_header Form_head.
Proof. unfold Form_header, Form_head. tw_entries. Qed.
Lemma Form_good c : Form_call_ok c = true -> good_entries (Form_entries c) (Form_doc c).
Proof. destruct c; cbn [Form_entries Form_doc Form_call_ok]; tw_call. Qed.
Lemma good_Form cs : Form_ok cs = true -> good (Form_obj cs) (Form_reads cs).
Proof. intro H. eapply good_writer; [exact Form_head_good|exact Form_good|exact H]. Qed.
#[export] Hint Resolve good_Form : tw.
#[export] Hint Resolve Form_head_good Form_good : twh.
#[export] Hint Extern 1 (good (arr_of Form_obj _) _) => apply (good_arr_of Form_obj Form_reads Form_ok _ good_Form) : tw.
#[export] Hint Extern 1 (good (dict_of Form_obj _) _) => apply (good_dict_of Form_obj Form_reads Form_ok _ good_Form) : tw.
