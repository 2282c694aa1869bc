(** Properties of typed writers: interactive forms and signatures. *)

From Coq Require Import ZArith List Bool.
From Verif Require ModelContent ModelCmap.
From Verif Require Import Bytes ModelFloat ModelBuf ModelObject ModelColor ModelSmall ModelPdf ModelTw ModelEnums ModelRoles ModelTwArgs ModelTwFiles ModelTwGraphics ModelTwAnnot ModelTwForms ModelChunk SpecLex SpecObj SpecText SpecMeans SpecPdf SpecTyped SpecColor SpecSmall SpecTw SpecEnums SpecRoles SpecTwArgs SpecTwFiles SpecTwGraphics SpecTwAnnot SpecTwForms SpecChunk ProofTyped ProofColor ProofTw ProofEnums ProofTwArgs ProofTwFiles ProofTwGraphics ProofTwAnnot ProofTwForms.
Import ListNotations.
Local Open Scope Z_scope.

(** ** ChoiceOptions *)

Theorem C52_choice_options : forall calls, ChoiceOptions_ok calls = true -> reads (ChoiceOptions_obj calls) (ChoiceOptions_reads calls).
Proof. intros cs H. apply good_reads. apply good_ChoiceOptions. exact H. Qed.
Example choice_options_case : ChoiceOptions_ok ChoiceOptions_sample = true.
Proof. vm_compute. reflexivity. Qed.

(** ** SignatureFieldLock *)

Theorem C52_signature_field_lock : forall calls, SignatureFieldLock_ok calls = true -> reads (SignatureFieldLock_obj calls) (SignatureFieldLock_reads calls).
Proof. intros cs H. apply good_reads. apply good_SignatureFieldLock. exact H. Qed.
Example signature_field_lock_case : SignatureFieldLock_ok SignatureFieldLock_sample = true.
Proof. vm_compute. reflexivity. Qed.

(** ** SignatureModificationDetectionPrevention *)

Theorem C52_signature_modification_detection_prevention : forall calls, SignatureModificationDetectionPrevention_ok calls = true -> reads (SignatureModificationDetectionPrevention_obj calls) (SignatureModificationDetectionPrevention_reads calls).
Proof. intros cs H. apply good_reads. apply good_SignatureModificationDetectionPrevention. exact H. Qed.
Example signature_modification_detection_prevention_case : SignatureModificationDetectionPrevention_ok SignatureModificationDetectionPrevention_sample = true.
Proof. vm_compute. reflexivity. Qed.

(** ** SignatureTimeStamp *)

Theorem C52_signature_time_stamp : forall calls, SignatureTimeStamp_ok calls = true -> reads (SignatureTimeStamp_obj calls) (SignatureTimeStamp_reads calls).
Proof. intros cs H. apply good_reads. apply good_SignatureTimeStamp. exact H. Qed.
Example signature_time_stamp_case : SignatureTimeStamp_ok SignatureTimeStamp_sample = true.
Proof. vm_compute. reflexivity. Qed.

(** ** CertificateSeedValue *)

Theorem C52_certificate_seed_value : forall calls, CertificateSeedValue_ok calls = true -> reads (CertificateSeedValue_obj calls) (CertificateSeedValue_reads calls).
Proof. intros cs H. apply good_reads. apply good_CertificateSeedValue. exact H. Qed.
Example certificate_seed_value_case : CertificateSeedValue_ok CertificateSeedValue_sample = true.
Proof. vm_compute. reflexivity. Qed.

(** ** SignatureSeedValue *)

Theorem C52_signature_seed_value : forall calls, SignatureSeedValue_ok calls = true -> reads (SignatureSeedValue_obj calls) (SignatureSeedValue_reads calls).
Proof. intros cs H. apply good_reads. apply good_SignatureSeedValue. exact H. Qed.
Example signature_seed_value_case : SignatureSeedValue_ok SignatureSeedValue_sample = true.
Proof. vm_compute. reflexivity. Qed.

(** ** Field *)

Theorem C52_field : forall calls, Field_ok calls = true -> reads (Field_obj calls) (Field_reads calls).
Proof. intros cs H. apply good_reads. apply good_Field. exact H. Qed.
Example field_case : Field_ok Field_sample = true.
Proof. vm_compute. reflexivity. Qed.

(** ** Form *)

Theorem C52_form : forall calls, Form_ok calls = true -> reads (Form_obj calls) (Form_reads calls).
Proof. intros cs H. apply good_reads. apply good_Form. exact H. Qed.
Example form_case : Form_ok Form_sample = true.
Proof. vm_compute. reflexivity. Qed.

(** ** Deviations *)

(** Documented as [AppearanceFilter], written as [LockDocument]. *)
Theorem C52_appearance_filter_refuted : forall t,
  text_ok t = true ->
  reads (SignatureSeedValue_obj [Typed (SignatureSeedValue_appearance_filter t)])
        (fun v => ~ is_dict [(lit "Type", is_name (lit "SV")); (lit "AppearanceFilter", is_text t)] v).
Proof.
  intros t H. eapply reads_weaken.
  - apply C52_signature_seed_value. unfold SignatureSeedValue_ok. cbn [forallb raw_ok SignatureSeedValue_call_ok]. rewrite H. reflexivity.
  - intros v (d & -> & F) (d' & E & F'). injection E as <-.
    inversion F as [|? ? ? ? _ G]; subst. inversion G as [|? x ? ? [A _] _]; subst.
    inversion F' as [|? ? ? ? _ G']; subst. inversion G' as [|? ? ? ? [B _] _]; subst.
    cbn [fst] in A, B. rewrite A in B. discriminate.
Qed.

(** Documented as [SignaturePolicyCommitmentType], written as [SignaturePolicyHashAlgorithm]. *)
Theorem C52_commitment_type_refuted : forall l,
  reads (CertificateSeedValue_obj [Typed (CertificateSeedValue_signature_policy_commitment_type l)])
        (fun v => ~ is_dict [(lit "Type", is_name (lit "SVCert")); (lit "SignaturePolicyCommitmentType", is_array_of is_str l)] v).
Proof.
  intros l. eapply reads_weaken.
  - apply C52_certificate_seed_value. reflexivity.
  - intros v (d & -> & F) (d' & E & F'). injection E as <-.
    inversion F as [|? ? ? ? _ G]; subst. inversion G as [|? x ? ? [A _] _]; subst.
    inversion F' as [|? ? ? ? _ G']; subst. inversion G' as [|? ? ? ? [B _] _]; subst.
    cbn [fst] in A, B. rewrite A in B. discriminate.
Qed.

Print Assumptions C52_choice_options.
Print Assumptions C52_signature_field_lock.
Print Assumptions C52_signature_modification_detection_prevention.
Print Assumptions C52_signature_time_stamp.
Print Assumptions C52_certificate_seed_value.
Print Assumptions C52_signature_seed_value.
Print Assumptions C52_field.
Print Assumptions C52_form.
Print Assumptions C52_appearance_filter_refuted.
Print Assumptions C52_commitment_type_refuted.
