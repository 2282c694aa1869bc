(** Specification of typed writers: interactive forms and signatures: the entries of every method, from its signature and documentation,
    and the conditions on its arguments. *)

From Coq Require Import ZArith List Bool.
From Verif Require ModelContent ModelCmap.
From Verif Require Import Bytes ModelFloat ModelBuf ModelObject ModelColor ModelSmall ModelPdf ModelTw ModelEnums ModelRoles ModelTwArgs ModelTwFiles ModelTwGraphics ModelTwAnnot ModelTwForms SpecLex SpecObj SpecText SpecMeans SpecPdf SpecTyped SpecColor SpecSmall SpecTw SpecEnums SpecRoles SpecTwArgs SpecTwFiles SpecTwGraphics SpecTwAnnot.
Import ListNotations.
Local Open Scope Z_scope.

(** ** ChoiceOptions *)

Definition ChoiceOptions_doc (c : ChoiceOptions_call) : list (val -> Prop) :=
  match c with
  | ChoiceOptions_option value => [is_textlike value]
  | ChoiceOptions_options values => map is_textlike values
  | ChoiceOptions_export value export_value => [is_array [is_text export_value; is_textlike value]]
  | ChoiceOptions_exports values => map (fun e => is_array [is_text (snd e); is_textlike (fst e)]) values
  end.
Definition ChoiceOptions_call_ok (c : ChoiceOptions_call) : bool :=
  match c with
  | ChoiceOptions_option value => textlike_ok value
  | ChoiceOptions_options values => forallb textlike_ok values
  | ChoiceOptions_export value export_value => textlike_ok value && text_ok export_value
  | ChoiceOptions_exports values => forallb pair_ok values
  end.
Definition ChoiceOptions_reads (cs : ChoiceOptions_calls) : val -> Prop := array_reads ChoiceOptions_doc cs.
Definition ChoiceOptions_ok (cs : ChoiceOptions_calls) : bool := forallb (item_ok ChoiceOptions_call_ok) cs.

(** A sample: every method once. *)
Definition ChoiceOptions_sample : ChoiceOptions_calls := [
  TypedItem (ChoiceOptions_option (TextPlain [97; 128512])); TypedItem (ChoiceOptions_options [TextPlain [65]]); TypedItem (ChoiceOptions_export (TextPlain [97; 128512]) [960; 65]); TypedItem (ChoiceOptions_exports [(TextPlain [65], [66])]); RawItem (OPrim (PInt 5))].

(** ** SignatureFieldLock *)

(** Written by the constructor. *)
Definition SignatureFieldLock_head : list entry_spec := [(lit "Type", is_name (lit "SigFieldLock"))].
Definition SignatureFieldLock_doc (c : SignatureFieldLock_call) : list entry_spec :=
  match c with
  | SignatureFieldLock_action action => [(lit "Action", is_SignatureLockAction action)]
  | SignatureFieldLock_fields fields => [(lit "Fields", is_array_of is_text fields)]
  | SignatureFieldLock_access_permissions p => [(lit "P", is_AccessPermissions p)]
  end.
Definition SignatureFieldLock_call_ok (c : SignatureFieldLock_call) : bool :=
  match c with
  | SignatureFieldLock_action _ => true
  | SignatureFieldLock_fields fields => forallb text_ok fields
  | SignatureFieldLock_access_permissions _ => true
  end.
Definition SignatureFieldLock_reads (cs : SignatureFieldLock_calls) : val -> Prop := writer_reads SignatureFieldLock_head SignatureFieldLock_doc cs.
Definition SignatureFieldLock_ok (cs : SignatureFieldLock_calls) : bool := forallb (raw_ok SignatureFieldLock_call_ok) cs.

(** A sample: every method once. *)
Definition SignatureFieldLock_sample : SignatureFieldLock_calls := [
  Typed (SignatureFieldLock_action SignatureLockAction_Exclude); Typed (SignatureFieldLock_fields [[65]; [960]]); Typed (SignatureFieldLock_access_permissions AccessPermissions_Annotations); Raw (lit "Extra") (OArray [OPrim (PBool true)])].

(** ** SignatureModificationDetectionPrevention *)

(** Written by the constructor: nothing. *)
Definition SignatureModificationDetectionPrevention_head : list entry_spec := [].
Definition SignatureModificationDetectionPrevention_doc (c : SignatureModificationDetectionPrevention_call) : list entry_spec :=
  match c with
  | SignatureModificationDetectionPrevention_signature_type p => [(lit "P", is_MdpSignatureType p)]
  end.
Definition SignatureModificationDetectionPrevention_call_ok (c : SignatureModificationDetectionPrevention_call) : bool :=
  match c with
  | SignatureModificationDetectionPrevention_signature_type _ => true
  end.
Definition SignatureModificationDetectionPrevention_reads (cs : SignatureModificationDetectionPrevention_calls) : val -> Prop := writer_reads SignatureModificationDetectionPrevention_head SignatureModificationDetectionPrevention_doc cs.
Definition SignatureModificationDetectionPrevention_ok (cs : SignatureModificationDetectionPrevention_calls) : bool := forallb (raw_ok SignatureModificationDetectionPrevention_call_ok) cs.

(** A sample: every method once. *)
Definition SignatureModificationDetectionPrevention_sample : SignatureModificationDetectionPrevention_calls := [
  Typed (SignatureModificationDetectionPrevention_signature_type MdpSignatureType_ApprovalSignature); Raw (lit "Extra") (OArray [OPrim (PBool true)])].

(** ** SignatureTimeStamp *)

(** Written by the constructor: nothing. *)
Definition SignatureTimeStamp_head : list entry_spec := [].
Definition SignatureTimeStamp_doc (c : SignatureTimeStamp_call) : list entry_spec :=
  match c with
  | SignatureTimeStamp_url url => [(lit "URL", is_str url)]
  | SignatureTimeStamp_required required => [(lit "Ff", is_int (if required then 1 else 0))]
  end.
Definition SignatureTimeStamp_call_ok (c : SignatureTimeStamp_call) : bool :=
  match c with
  | SignatureTimeStamp_url _ => true
  | SignatureTimeStamp_required _ => true
  end.
Definition SignatureTimeStamp_reads (cs : SignatureTimeStamp_calls) : val -> Prop := writer_reads SignatureTimeStamp_head SignatureTimeStamp_doc cs.
Definition SignatureTimeStamp_ok (cs : SignatureTimeStamp_calls) : bool := forallb (raw_ok SignatureTimeStamp_call_ok) cs.

(** A sample: every method once. *)
Definition SignatureTimeStamp_sample : SignatureTimeStamp_calls := [
  Typed (SignatureTimeStamp_url (lit "x(y")); Typed (SignatureTimeStamp_required true); Raw (lit "Extra") (OArray [OPrim (PBool true)])].

(** ** CertificateSeedValue *)

(** Written by the constructor. *)
Definition CertificateSeedValue_head : list entry_spec := [(lit "Type", is_name (lit "SVCert"))].
Definition CertificateSeedValue_doc (c : CertificateSeedValue_call) : list entry_spec :=
  match c with
  | CertificateSeedValue_constraint_flags flags => [(lit "Ff", is_flags CertificateSeedValueFlags_pos flags)]
  | CertificateSeedValue_subject certificates => [(lit "Subject", is_array_of is_str certificates)]
  | CertificateSeedValue_signature_policy_oid oid => [(lit "SignaturePolicyOID", is_str oid)]
  | CertificateSeedValue_signature_policy_hash_value hash_value => [(lit "SignaturePolicyHashValue", is_str hash_value)]
  | CertificateSeedValue_signature_policy_hash_algorithm hash_algorithm => [(lit "SignaturePolicyHashAlgorithm", is_name hash_algorithm)]
  | CertificateSeedValue_signature_policy_commitment_type commitment_types => [(lit "SignaturePolicyHashAlgorithm", is_array_of is_str commitment_types)]   (* the documentation says SignaturePolicyCommitmentType: see C52_commitment_type_refuted *)
  | CertificateSeedValue_subject_dn items => [(lit "SubjectDN", is_array_of (fun d => means (ODict d)) items)]
  | CertificateSeedValue_key_usage key_usages => [(lit "KeyUsage", is_array_of is_key_usage key_usages)]
  | CertificateSeedValue_issuer issuers => [(lit "Issuer", is_array_of is_str issuers)]
  | CertificateSeedValue_oid oids => [(lit "OID", is_array_of is_str oids)]
  | CertificateSeedValue_url url => [(lit "URL", is_str url)]
  | CertificateSeedValue_url_type url_type => [(lit "URLType", is_CertificateUrlType url_type)]
  end.
Definition CertificateSeedValue_call_ok (c : CertificateSeedValue_call) : bool :=
  match c with
  | CertificateSeedValue_constraint_flags _ => true
  | CertificateSeedValue_subject _ => true
  | CertificateSeedValue_signature_policy_oid _ => true
  | CertificateSeedValue_signature_policy_hash_value _ => true
  | CertificateSeedValue_signature_policy_hash_algorithm hash_algorithm => name_ok hash_algorithm
  | CertificateSeedValue_signature_policy_commitment_type _ => true
  | CertificateSeedValue_subject_dn items => forallb (fun d => obj_arg_ok (ODict d)) items
  | CertificateSeedValue_key_usage _ => true
  | CertificateSeedValue_issuer _ => true
  | CertificateSeedValue_oid _ => true
  | CertificateSeedValue_url _ => true
  | CertificateSeedValue_url_type url_type => CertificateUrlType_ok url_type
  end.
Definition CertificateSeedValue_reads (cs : CertificateSeedValue_calls) : val -> Prop := writer_reads CertificateSeedValue_head CertificateSeedValue_doc cs.
Definition CertificateSeedValue_ok (cs : CertificateSeedValue_calls) : bool := forallb (raw_ok CertificateSeedValue_call_ok) cs.

(** A sample: every method once. *)
Definition CertificateSeedValue_sample : CertificateSeedValue_calls := [
  Typed (CertificateSeedValue_constraint_flags [CertificateSeedValueFlags_KeyUsage; CertificateSeedValueFlags_Url]); Typed (CertificateSeedValue_subject [lit "A"; lit "B"]); Typed (CertificateSeedValue_signature_policy_oid (lit "x(y")); Typed (CertificateSeedValue_signature_policy_hash_value (lit "x(y")); Typed (CertificateSeedValue_signature_policy_hash_algorithm (lit "a b")); Typed (CertificateSeedValue_signature_policy_commitment_type [lit "A"; lit "B"]); Typed (CertificateSeedValue_subject_dn [[(lit "K", OPrim (PInt 5))]]); Typed (CertificateSeedValue_key_usage [mkKeyUsage (Some true) None None None None (Some false) None None None]); Typed (CertificateSeedValue_issuer [lit "A"; lit "B"]); Typed (CertificateSeedValue_oid [lit "A"; lit "B"]); Typed (CertificateSeedValue_url (lit "x(y")); Typed (CertificateSeedValue_url_type (CertificateUrlType_Custom (lit "Zz"))); Raw (lit "Extra") (OArray [OPrim (PBool true)])].

(** ** SignatureSeedValue *)

(** Written by the constructor. *)
Definition SignatureSeedValue_head : list entry_spec := [(lit "Type", is_name (lit "SV"))].
Definition SignatureSeedValue_doc (c : SignatureSeedValue_call) : list entry_spec :=
  match c with
  | SignatureSeedValue_constraint_flags flags => [(lit "Ff", is_flags SignatureSeedValueFlags_pos flags)]
  | SignatureSeedValue_filter signature_handler => [(lit "Filter", is_name signature_handler)]
  | SignatureSeedValue_sub_filter encodings => [(lit "SubFilter", is_names encodings)]
  | SignatureSeedValue_digest_method digest_method => [(lit "DigestMethod", is_array_of is_SignatureDigestMethod digest_method)]
  | SignatureSeedValue_version version => [(lit "V", is_SeedValueParserVersion version)]
  | SignatureSeedValue_certificate calls => [(lit "Cert", CertificateSeedValue_reads calls)]
  | SignatureSeedValue_reasons reasons => [(lit "Reasons", is_array_of is_text reasons)]
  | SignatureSeedValue_modification_detection_prevention calls => [(lit "MDP", SignatureModificationDetectionPrevention_reads calls)]
  | SignatureSeedValue_timestamp calls => [(lit "TimeStamp", SignatureTimeStamp_reads calls)]
  | SignatureSeedValue_legal_attestation legal_attestations => [(lit "LegalAttestation", is_array_of is_text legal_attestations)]
  | SignatureSeedValue_add_rev_info check_revocation => [(lit "AddRevInfo", is_bool check_revocation)]
  | SignatureSeedValue_lock_document intent => [(lit "LockDocument", is_LockingIntent intent)]
  | SignatureSeedValue_appearance_filter signature_appearance => [(lit "LockDocument", is_text signature_appearance)]   (* the documentation and ISO 32000 say AppearanceFilter: see C52_appearance_filter_refuted *)
  end.
Definition SignatureSeedValue_call_ok (c : SignatureSeedValue_call) : bool :=
  match c with
  | SignatureSeedValue_constraint_flags _ => true
  | SignatureSeedValue_filter signature_handler => name_ok signature_handler
  | SignatureSeedValue_sub_filter encodings => forallb name_ok encodings
  | SignatureSeedValue_digest_method _ => true
  | SignatureSeedValue_version _ => true
  | SignatureSeedValue_certificate calls => CertificateSeedValue_ok calls
  | SignatureSeedValue_reasons reasons => forallb text_ok reasons
  | SignatureSeedValue_modification_detection_prevention calls => SignatureModificationDetectionPrevention_ok calls
  | SignatureSeedValue_timestamp calls => SignatureTimeStamp_ok calls
  | SignatureSeedValue_legal_attestation legal_attestations => forallb text_ok legal_attestations
  | SignatureSeedValue_add_rev_info _ => true
  | SignatureSeedValue_lock_document _ => true
  | SignatureSeedValue_appearance_filter signature_appearance => text_ok signature_appearance
  end.
Definition SignatureSeedValue_reads (cs : SignatureSeedValue_calls) : val -> Prop := writer_reads SignatureSeedValue_head SignatureSeedValue_doc cs.
Definition SignatureSeedValue_ok (cs : SignatureSeedValue_calls) : bool := forallb (raw_ok SignatureSeedValue_call_ok) cs.

(** A sample: every method once. *)
Definition SignatureSeedValue_sample : SignatureSeedValue_calls := [
  Typed (SignatureSeedValue_constraint_flags [SignatureSeedValueFlags_LockDocument; SignatureSeedValueFlags_AppearanceFilter]); Typed (SignatureSeedValue_filter (lit "a b")); Typed (SignatureSeedValue_sub_filter [lit "A"; lit "B"]); Typed (SignatureSeedValue_digest_method [SignatureDigestMethod_SHA1]); Typed (SignatureSeedValue_version SeedValueParserVersion_Pdf20); Typed (SignatureSeedValue_certificate CertificateSeedValue_sample); Typed (SignatureSeedValue_reasons [[65]; [960]]); Typed (SignatureSeedValue_modification_detection_prevention SignatureModificationDetectionPrevention_sample); Typed (SignatureSeedValue_timestamp SignatureTimeStamp_sample); Typed (SignatureSeedValue_legal_attestation [[65]; [960]]); Typed (SignatureSeedValue_add_rev_info true); Typed (SignatureSeedValue_lock_document LockingIntent_Auto); Typed (SignatureSeedValue_appearance_filter [960; 65]); Raw (lit "Extra") (OArray [OPrim (PBool true)])].

(** ** Field *)

(** Written by the constructor: nothing. *)
Definition Field_head : list entry_spec := [].
Definition Field_doc (c : Field_call) : list entry_spec :=
  match c with
  | Field_field_type typ => [(lit "FT", is_FieldType typ)]
  | Field_parent id => [(lit "Parent", is_ref id)]
  | Field_children children => [(lit "Kids", is_refs children)]
  | Field_partial_name name => [(lit "T", is_text name)]
  | Field_alternate_name alternate => [(lit "TU", is_textlike alternate)]
  | Field_mapping_name name => [(lit "TM", is_text name)]
  | Field_field_flags flags => [(lit "Ff", is_flags FieldFlags_pos flags)]
  | Field_additional_actions calls => [(lit "AA", AdditionalActions_reads calls)]
  | Field_into_annotation calls => (lit "Type", is_name (lit "Annot")) :: (lit "Subtype", is_AnnotationType AnnotationType_Widget) :: writer_doc [] Annotation_doc calls   (* the calls on the annotation that follow *)
  | Field_button_options options => [(lit "Opt", is_array_of is_text options)]
  | Field_checkbox_value state => [(lit "V", is_CheckBoxState state)]
  | Field_checkbox_default_value state => [(lit "DV", is_CheckBoxState state)]
  | Field_radio_value state => [(lit "V", is_name state)]
  | Field_radio_default_value state => [(lit "DV", is_name state)]
  | Field_text_max_len len => [(lit "MaxLen", is_int len)]
  | Field_text_value value => [(lit "V", is_textlike value)]
  | Field_text_default_value value => [(lit "DV", is_textlike value)]
  | Field_vartext_default_appearance appearance => [(lit "DA", is_str appearance)]
  | Field_vartext_quadding quadding => [(lit "Q", is_Quadding quadding)]
  | Field_vartext_default_style style => [(lit "DS", is_text style)]
  | Field_vartext_rich_value value => [(lit "RV", is_textlike value)]
  | Field_choice_options calls => [(lit "Opt", ChoiceOptions_reads calls)]
  | Field_choice_top_index index => [(lit "TI", is_int index)]
  | Field_choice_indices indices => [(lit "I", is_array_of is_int indices)]
  | Field_choice_value option => [(lit "V", is_text_or_null option)]
  | Field_choice_values options => [(lit "V", is_array_of is_text options)]
  | Field_choice_default_value option => [(lit "DV", is_text_or_null option)]
  | Field_choice_default_values options => [(lit "DV", is_array_of is_text options)]
  | Field_signature_field_lock field_lock => [(lit "Lock", is_ref field_lock)]
  | Field_signature_seed_value seed_value => [(lit "SV", is_ref seed_value)]
  end.
Definition Field_call_ok (c : Field_call) : bool :=
  match c with
  | Field_field_type _ => true
  | Field_parent id => ref_ok id
  | Field_children children => forallb ref_ok children
  | Field_partial_name name => text_ok name
  | Field_alternate_name alternate => textlike_ok alternate
  | Field_mapping_name name => text_ok name
  | Field_field_flags _ => true
  | Field_additional_actions calls => AdditionalActions_ok calls
  | Field_into_annotation calls => Annotation_ok calls
  | Field_button_options options => forallb text_ok options
  | Field_checkbox_value _ => true
  | Field_checkbox_default_value _ => true
  | Field_radio_value state => name_ok state
  | Field_radio_default_value state => name_ok state
  | Field_text_max_len len => in_i32 len
  | Field_text_value value => textlike_ok value
  | Field_text_default_value value => textlike_ok value
  | Field_vartext_default_appearance _ => true
  | Field_vartext_quadding _ => true
  | Field_vartext_default_style style => text_ok style
  | Field_vartext_rich_value value => textlike_ok value
  | Field_choice_options calls => ChoiceOptions_ok calls
  | Field_choice_top_index index => in_i32 index
  | Field_choice_indices indices => forallb in_i32 indices
  | Field_choice_value option => opt_text_ok option
  | Field_choice_values options => forallb text_ok options
  | Field_choice_default_value option => opt_text_ok option
  | Field_choice_default_values options => forallb text_ok options
  | Field_signature_field_lock field_lock => ref_ok field_lock
  | Field_signature_seed_value seed_value => ref_ok seed_value
  end.
Definition Field_reads (cs : Field_calls) : val -> Prop := writer_reads Field_head Field_doc cs.
Definition Field_ok (cs : Field_calls) : bool := forallb (raw_ok Field_call_ok) cs.

(** A sample: every method once. *)
Definition Field_sample : Field_calls := [
  Typed (Field_field_type FieldType_Signature); Typed (Field_parent 7); Typed (Field_children [3; 4]); Typed (Field_partial_name [960; 65]); Typed (Field_alternate_name (TextPlain [97; 128512])); Typed (Field_mapping_name [960; 65]); Typed (Field_field_flags [FieldFlags_MultiSelect; FieldFlags_CommitOnSelChange]); Typed (Field_additional_actions AdditionalActions_sample); Typed (Field_into_annotation Annotation_sample); Typed (Field_button_options [[65]; [960]]); Typed (Field_checkbox_value CheckBoxState_Off); Typed (Field_checkbox_default_value CheckBoxState_Off); Typed (Field_radio_value (lit "a b")); Typed (Field_radio_default_value (lit "a b")); Typed (Field_text_max_len (-3)); Typed (Field_text_value (TextPlain [97; 128512])); Typed (Field_text_default_value (TextPlain [97; 128512])); Typed (Field_vartext_default_appearance (lit "x(y")); Typed (Field_vartext_quadding Quadding_Right); Typed (Field_vartext_default_style [960; 65]); Typed (Field_vartext_rich_value (TextPlain [97; 128512])); Typed (Field_choice_options ChoiceOptions_sample); Typed (Field_choice_top_index (-3)); Typed (Field_choice_indices [1; -2]); Typed (Field_choice_value None); Typed (Field_choice_values [[65]; [960]]); Typed (Field_choice_default_value None); Typed (Field_choice_default_values [[65]; [960]]); Typed (Field_signature_field_lock 7); Typed (Field_signature_seed_value 7); Raw (lit "Extra") (OArray [OPrim (PBool true)])].

(** ** Form *)

(** Written by the constructor: nothing. *)
Definition Form_head : list entry_spec := [].
Definition Form_doc (c : Form_call) : list entry_spec :=
  match c with
  | Form_fields fields => [(lit "Fields", is_refs fields)]
  | Form_sig_flags flags => [(lit "SigFlags", is_flags SigFlags_pos flags)]
  | Form_calculation_order actions => [(lit "CO", is_refs actions)]
  | Form_default_resources calls => [(lit "DR", Resources_reads calls)]
  | Form_default_appearance default => [(lit "DA", is_str default)]
  | Form_quadding default => [(lit "Q", is_Quadding default)]
  end.
Definition Form_call_ok (c : Form_call) : bool :=
  match c with
  | Form_fields fields => forallb ref_ok fields
  | Form_sig_flags _ => true
  | Form_calculation_order actions => forallb ref_ok actions
  | Form_default_resources calls => Resources_ok calls
  | Form_default_appearance _ => true
  | Form_quadding _ => true
  end.
Definition Form_reads (cs : Form_calls) : val -> Prop := writer_reads Form_head Form_doc cs.
Definition Form_ok (cs : Form_calls) : bool := forallb (raw_ok Form_call_ok) cs.

(** A sample: every method once. *)
Definition Form_sample : Form_calls := [
  Typed (Form_fields [3; 4]); Typed (Form_sig_flags [SigFlags_SignaturesExist; SigFlags_AppendOnly]); Typed (Form_calculation_order [3; 4]); Typed (Form_default_resources Resources_sample); Typed (Form_default_appearance (lit "x(y")); Typed (Form_quadding Quadding_Right); Raw (lit "Extra") (OArray [OPrim (PBool true)])].
