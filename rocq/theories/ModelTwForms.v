(** Model of typed writers: interactive forms and signatures.  Generated by gen/gen_writers.py from the source text. *)

From Coq Require Import ZArith List Bool.
From Verif Require ModelContent ModelCmap.
From Verif Require Import Bytes ModelFloat ModelBuf ModelObject ModelColor ModelSmall ModelPdf ModelTw ModelEnums ModelRoles ModelTwArgs ModelTwFiles ModelTwGraphics ModelTwAnnot.
Import ListNotations.
Local Open Scope Z_scope.

(** ** ChoiceOptions (src/forms.rs) *)

Inductive ChoiceOptions_call :=
| ChoiceOptions_option (value : textlike)
| ChoiceOptions_options (values : list textlike)
| ChoiceOptions_export (value : textlike) (export_value : list Z)
| ChoiceOptions_exports (values : list (textlike * list Z)).
Definition ChoiceOptions_items (c : ChoiceOptions_call) : list obj :=
  match c with
  | ChoiceOptions_option value => [OPrim (text_prim value)]   (* src/forms.rs:451-454 *)
  | ChoiceOptions_options values => map (fun t => OPrim (text_prim t)) values   (* src/forms.rs:457-463 *)
  | ChoiceOptions_export value export_value => [OArray [OPrim (PText export_value); OPrim (text_prim value)]]   (* src/forms.rs:466-477 *)
  | ChoiceOptions_exports values => map (fun e => OArray [OPrim (PText (snd e)); OPrim (text_prim (fst e))]) values   (* src/forms.rs:480-488 *)
  end.
Definition ChoiceOptions_calls : Type := list (or_item ChoiceOptions_call).
Definition ChoiceOptions_obj (cs : ChoiceOptions_calls) : obj := array_writer ChoiceOptions_items cs.

(** ** SignatureFieldLock (src/forms.rs) *)

Inductive SignatureFieldLock_call :=
| SignatureFieldLock_action (action : SignatureLockAction)
| SignatureFieldLock_fields (fields : list (list Z))
| SignatureFieldLock_access_permissions (p : AccessPermissions).
Definition SignatureFieldLock_entries (c : SignatureFieldLock_call) : list (bytes * obj) :=
  match c with
  | SignatureFieldLock_action action => [(lit "Action", OPrim (PName (SignatureLockAction_name action)))]   (* src/forms.rs:530-533 *)
  | SignatureFieldLock_fields fields => [(lit "Fields", arr_of (fun t => OPrim (PText t)) fields)]   (* src/forms.rs:541-547 *)
  | SignatureFieldLock_access_permissions p => [(lit "P", OPrim (PInt (AccessPermissions_int p)))]   (* src/forms.rs:551-554 *)
  end.
(** src/forms.rs:519-523. *)
Definition SignatureFieldLock_header : list (bytes * obj) := [(lit "Type", OPrim (PName (lit "SigFieldLock")))].
Definition SignatureFieldLock_calls : Type := list (or_raw SignatureFieldLock_call).
Definition SignatureFieldLock_obj (cs : SignatureFieldLock_calls) : obj := dict_writer SignatureFieldLock_header SignatureFieldLock_entries cs.

(** ** SignatureModificationDetectionPrevention (src/forms.rs) *)

Inductive SignatureModificationDetectionPrevention_call :=
| SignatureModificationDetectionPrevention_signature_type (p : MdpSignatureType).
Definition SignatureModificationDetectionPrevention_entries (c : SignatureModificationDetectionPrevention_call) : list (bytes * obj) :=
  match c with
  | SignatureModificationDetectionPrevention_signature_type p => [(lit "P", OPrim (PInt (MdpSignatureType_int p)))]   (* src/forms.rs:827-830 *)
  end.
(** src/forms.rs:822: no entries. *)
Definition SignatureModificationDetectionPrevention_header : list (bytes * obj) := [].
Definition SignatureModificationDetectionPrevention_calls : Type := list (or_raw SignatureModificationDetectionPrevention_call).
Definition SignatureModificationDetectionPrevention_obj (cs : SignatureModificationDetectionPrevention_calls) : obj := dict_writer SignatureModificationDetectionPrevention_header SignatureModificationDetectionPrevention_entries cs.

(** ** SignatureTimeStamp (src/forms.rs) *)

Inductive SignatureTimeStamp_call :=
| SignatureTimeStamp_url (url : bytes)
| SignatureTimeStamp_required (required : bool).
Definition SignatureTimeStamp_entries (c : SignatureTimeStamp_call) : list (bytes * obj) :=
  match c with
  | SignatureTimeStamp_url url => [(lit "URL", OPrim (PStr url))]   (* src/forms.rs:891-894 *)
  | SignatureTimeStamp_required required => [(lit "Ff", OPrim (PInt (if required then 1 else 0)))]   (* src/forms.rs:897-900 *)
  end.
(** src/forms.rs:886: no entries. *)
Definition SignatureTimeStamp_header : list (bytes * obj) := [].
Definition SignatureTimeStamp_calls : Type := list (or_raw SignatureTimeStamp_call).
Definition SignatureTimeStamp_obj (cs : SignatureTimeStamp_calls) : obj := dict_writer SignatureTimeStamp_header SignatureTimeStamp_entries cs.

(** ** CertificateSeedValue (src/forms.rs) *)

Inductive CertificateSeedValue_call :=
| CertificateSeedValue_constraint_flags (flags : list CertificateSeedValueFlags)
| CertificateSeedValue_subject (certificates : list bytes)
| CertificateSeedValue_signature_policy_oid (oid : bytes)
| CertificateSeedValue_signature_policy_hash_value (hash_value : bytes)
| CertificateSeedValue_signature_policy_hash_algorithm (hash_algorithm : bytes)
| CertificateSeedValue_signature_policy_commitment_type (commitment_types : list bytes)
| CertificateSeedValue_subject_dn (items : list (list (bytes * obj)))
| CertificateSeedValue_key_usage (key_usages : list CertificateKeyUsage)
| CertificateSeedValue_issuer (issuers : list bytes)
| CertificateSeedValue_oid (oids : list bytes)
| CertificateSeedValue_url (url : bytes)
| CertificateSeedValue_url_type (url_type : CertificateUrlType).
Definition CertificateSeedValue_entries (c : CertificateSeedValue_call) : list (bytes * obj) :=
  match c with
  | CertificateSeedValue_constraint_flags flags => [(lit "Ff", OPrim (PInt (flags_bits CertificateSeedValueFlags_bit flags)))]   (* src/forms.rs:944-947 *)
  | CertificateSeedValue_subject certificates => [(lit "Subject", arr_of (fun s => OPrim (PStr s)) certificates)]   (* src/forms.rs:954-960 *)
  | CertificateSeedValue_signature_policy_oid oid => [(lit "SignaturePolicyOID", OPrim (PStr oid))]   (* src/forms.rs:964-967 *)
  | CertificateSeedValue_signature_policy_hash_value hash_value => [(lit "SignaturePolicyHashValue", OPrim (PStr hash_value))]   (* src/forms.rs:974-977 *)
  | CertificateSeedValue_signature_policy_hash_algorithm hash_algorithm => [(lit "SignaturePolicyHashAlgorithm", OPrim (PName hash_algorithm))]   (* src/forms.rs:983-989 *)
  | CertificateSeedValue_signature_policy_commitment_type commitment_types => [(lit "SignaturePolicyHashAlgorithm", arr_of (fun s => OPrim (PStr s)) commitment_types)]   (* src/forms.rs:997-1005 *)
  | CertificateSeedValue_subject_dn items => [(lit "SubjectDN", arr_of ODict items)]   (* src/forms.rs:1017-1019 *)
  | CertificateSeedValue_key_usage key_usages => [(lit "KeyUsage", arr_of (fun u => OPrim (PStr (into_ascii u))) key_usages)]   (* src/forms.rs:1027-1037 *)
  | CertificateSeedValue_issuer issuers => [(lit "Issuer", arr_of (fun s => OPrim (PStr s)) issuers)]   (* src/forms.rs:1044-1050 *)
  | CertificateSeedValue_oid oids => [(lit "OID", arr_of (fun s => OPrim (PStr s)) oids)]   (* src/forms.rs:1057-1060 *)
  | CertificateSeedValue_url url => [(lit "URL", OPrim (PStr url))]   (* src/forms.rs:1064-1067 *)
  | CertificateSeedValue_url_type url_type => [(lit "URLType", OPrim (PName (CertificateUrlType_name url_type)))]   (* src/forms.rs:1072-1075 *)
  end.
(** src/forms.rs:935-939. *)
Definition CertificateSeedValue_header : list (bytes * obj) := [(lit "Type", OPrim (PName (lit "SVCert")))].
Definition CertificateSeedValue_calls : Type := list (or_raw CertificateSeedValue_call).
Definition CertificateSeedValue_obj (cs : CertificateSeedValue_calls) : obj := dict_writer CertificateSeedValue_header CertificateSeedValue_entries cs.

(** ** SignatureSeedValue (src/forms.rs) *)

Inductive SignatureSeedValue_call :=
| SignatureSeedValue_constraint_flags (flags : list SignatureSeedValueFlags)
| SignatureSeedValue_filter (signature_handler : bytes)
| SignatureSeedValue_sub_filter (encodings : list bytes)
| SignatureSeedValue_digest_method (digest_method : list SignatureDigestMethod)
| SignatureSeedValue_version (version : SeedValueParserVersion)
| SignatureSeedValue_certificate (calls : CertificateSeedValue_calls)
| SignatureSeedValue_reasons (reasons : list (list Z))
| SignatureSeedValue_modification_detection_prevention (calls : SignatureModificationDetectionPrevention_calls)
| SignatureSeedValue_timestamp (calls : SignatureTimeStamp_calls)
| SignatureSeedValue_legal_attestation (legal_attestations : list (list Z))
| SignatureSeedValue_add_rev_info (check_revocation : bool)
| SignatureSeedValue_lock_document (intent : LockingIntent)
| SignatureSeedValue_appearance_filter (signature_appearance : list Z).
Definition SignatureSeedValue_entries (c : SignatureSeedValue_call) : list (bytes * obj) :=
  match c with
  | SignatureSeedValue_constraint_flags flags => [(lit "Ff", OPrim (PInt (flags_bits SignatureSeedValueFlags_bit flags)))]   (* src/forms.rs:599-602 *)
  | SignatureSeedValue_filter signature_handler => [(lit "Filter", OPrim (PName signature_handler))]   (* src/forms.rs:609-612 *)
  | SignatureSeedValue_sub_filter encodings => [(lit "SubFilter", names encodings)]   (* src/forms.rs:618-624 *)
  | SignatureSeedValue_digest_method digest_method => [(lit "DigestMethod", arr_of (fun e => OPrim (PName (SignatureDigestMethod_name e))) digest_method)]   (* src/forms.rs:631-639 *)
  | SignatureSeedValue_version version => [(lit "V", OPrim (PInt (SeedValueParserVersion_int version)))]   (* src/forms.rs:646-649 *)
  | SignatureSeedValue_certificate calls => [(lit "Cert", CertificateSeedValue_obj calls)]   (* src/forms.rs:653-655 *)
  | SignatureSeedValue_reasons reasons => [(lit "Reasons", arr_of (fun t => OPrim (PText t)) reasons)]   (* src/forms.rs:662-668 *)
  | SignatureSeedValue_modification_detection_prevention calls => [(lit "MDP", SignatureModificationDetectionPrevention_obj calls)]   (* src/forms.rs:672-676 *)
  | SignatureSeedValue_timestamp calls => [(lit "TimeStamp", SignatureTimeStamp_obj calls)]   (* src/forms.rs:681-683 *)
  | SignatureSeedValue_legal_attestation legal_attestations => [(lit "LegalAttestation", arr_of (fun t => OPrim (PText t)) legal_attestations)]   (* src/forms.rs:690-698 *)
  | SignatureSeedValue_add_rev_info check_revocation => [(lit "AddRevInfo", OPrim (PBool check_revocation))]   (* src/forms.rs:705-708 *)
  | SignatureSeedValue_lock_document intent => [(lit "LockDocument", OPrim (PName (LockingIntent_name intent)))]   (* src/forms.rs:717-720 *)
  | SignatureSeedValue_appearance_filter signature_appearance => [(lit "LockDocument", OPrim (PText signature_appearance))]   (* src/forms.rs:728-731 *)
  end.
(** src/forms.rs:590-594. *)
Definition SignatureSeedValue_header : list (bytes * obj) := [(lit "Type", OPrim (PName (lit "SV")))].
Definition SignatureSeedValue_calls : Type := list (or_raw SignatureSeedValue_call).
Definition SignatureSeedValue_obj (cs : SignatureSeedValue_calls) : obj := dict_writer SignatureSeedValue_header SignatureSeedValue_entries cs.

(** ** Field (src/forms.rs) *)

Inductive Field_call :=
| Field_field_type (typ : FieldType)
| Field_parent (id : Z)
| Field_children (children : list Z)
| Field_partial_name (name : list Z)
| Field_alternate_name (alternate : textlike)
| Field_mapping_name (name : list Z)
| Field_field_flags (flags : list FieldFlags)
| Field_additional_actions (calls : AdditionalActions_calls)
| Field_into_annotation (calls : Annotation_calls)
| Field_button_options (options : list (list Z))
| Field_checkbox_value (state : CheckBoxState)
| Field_checkbox_default_value (state : CheckBoxState)
| Field_radio_value (state : bytes)
| Field_radio_default_value (state : bytes)
| Field_text_max_len (len : Z)
| Field_text_value (value : textlike)
| Field_text_default_value (value : textlike)
| Field_vartext_default_appearance (appearance : bytes)
| Field_vartext_quadding (quadding : Quadding)
| Field_vartext_default_style (style : list Z)
| Field_vartext_rich_value (value : textlike)
| Field_choice_options (calls : ChoiceOptions_calls)
| Field_choice_top_index (index : Z)
| Field_choice_indices (indices : list Z)
| Field_choice_value (option : option (list Z))
| Field_choice_values (options : list (list Z))
| Field_choice_default_value (option : option (list Z))
| Field_choice_default_values (options : list (list Z))
| Field_signature_field_lock (field_lock : Z)
| Field_signature_seed_value (seed_value : Z).
Definition Field_entries (c : Field_call) : list (bytes * obj) :=
  match c with
  | Field_field_type typ => [(lit "FT", OPrim (PName (FieldType_name typ)))]   (* src/forms.rs:94-97 *)
  | Field_parent id => [(lit "Parent", OPrim (PRef id))]   (* src/forms.rs:101-104 *)
  | Field_children children => [(lit "Kids", refs children)]   (* src/forms.rs:109-112 *)
  | Field_partial_name name => [(lit "T", OPrim (PText name))]   (* src/forms.rs:124-127 *)
  | Field_alternate_name alternate => [(lit "TU", OPrim (text_prim alternate))]   (* src/forms.rs:135-138 *)
  | Field_mapping_name name => [(lit "TM", OPrim (PText name))]   (* src/forms.rs:143-146 *)
  | Field_field_flags flags => [(lit "Ff", OPrim (PInt (flags_bits FieldFlags_bit flags)))]   (* src/forms.rs:150-153 *)
  | Field_additional_actions calls => [(lit "AA", AdditionalActions_obj calls)]   (* src/forms.rs:159-161 *)
  | Field_into_annotation calls => (lit "Type", OPrim (PName (lit "Annot"))) :: (lit "Subtype", OPrim (PName (AnnotationType_name AnnotationType_Widget))) :: writer_list [] Annotation_entries calls   (* src/forms.rs:170-175 *)
  | Field_button_options options => [(lit "Opt", arr_of (fun t => OPrim (PText t)) options)]   (* src/forms.rs:211-217 *)
  | Field_checkbox_value state => [(lit "V", OPrim (PName (CheckBoxState_name state)))]   (* src/forms.rs:226-229 *)
  | Field_checkbox_default_value state => [(lit "DV", OPrim (PName (CheckBoxState_name state)))]   (* src/forms.rs:235-238 *)
  | Field_radio_value state => [(lit "V", OPrim (PName state))]   (* src/forms.rs:265-268 *)
  | Field_radio_default_value state => [(lit "DV", OPrim (PName state))]   (* src/forms.rs:275-278 *)
  | Field_text_max_len len => [(lit "MaxLen", OPrim (PInt len))]   (* src/forms.rs:288-291 *)
  | Field_text_value value => [(lit "V", OPrim (text_prim value))]   (* src/forms.rs:295-298 *)
  | Field_text_default_value value => [(lit "DV", OPrim (text_prim value))]   (* src/forms.rs:302-305 *)
  | Field_vartext_default_appearance appearance => [(lit "DA", OPrim (PStr appearance))]   (* src/forms.rs:314-317 *)
  | Field_vartext_quadding quadding => [(lit "Q", OPrim (PInt (Quadding_int quadding)))]   (* src/forms.rs:322-325 *)
  | Field_vartext_default_style style => [(lit "DS", OPrim (PText style))]   (* src/forms.rs:329-332 *)
  | Field_vartext_rich_value value => [(lit "RV", OPrim (text_prim value))]   (* src/forms.rs:340-343 *)
  | Field_choice_options calls => [(lit "Opt", ChoiceOptions_obj calls)]   (* src/forms.rs:362-364 *)
  | Field_choice_top_index index => [(lit "TI", OPrim (PInt index))]   (* src/forms.rs:369-372 *)
  | Field_choice_indices indices => [(lit "I", ints indices)]   (* src/forms.rs:385-391 *)
  | Field_choice_value option => [(lit "V", text_or_null option)]   (* src/forms.rs:397-403 *)
  | Field_choice_values options => [(lit "V", arr_of (fun t => OPrim (PText t)) options)]   (* src/forms.rs:408-414 *)
  | Field_choice_default_value option => [(lit "DV", text_or_null option)]   (* src/forms.rs:420-426 *)
  | Field_choice_default_values options => [(lit "DV", arr_of (fun t => OPrim (PText t)) options)]   (* src/forms.rs:431-437 *)
  | Field_signature_field_lock field_lock => [(lit "Lock", OPrim (PRef field_lock))]   (* src/forms.rs:498-501 *)
  | Field_signature_seed_value seed_value => [(lit "SV", OPrim (PRef seed_value))]   (* src/forms.rs:506-509 *)
  end.
(** src/forms.rs:89: no entries. *)
Definition Field_header : list (bytes * obj) := [].
Definition Field_calls : Type := list (or_raw Field_call).
Definition Field_obj (cs : Field_calls) : obj := dict_writer Field_header Field_entries cs.

(** ** Form (src/forms.rs) *)

Inductive Form_call :=
| Form_fields (fields : list Z)
| Form_sig_flags (flags : list SigFlags)
| Form_calculation_order (actions : list Z)
| Form_default_resources (calls : Resources_calls)
| Form_default_appearance (default : bytes)
| Form_quadding (default : Quadding).
Definition Form_entries (c : Form_call) : list (bytes * obj) :=
  match c with
  | Form_fields fields => [(lit "Fields", refs fields)]   (* src/forms.rs:17-20 *)
  | Form_sig_flags flags => [(lit "SigFlags", OPrim (PInt (flags_bits SigFlags_bit flags)))]   (* src/forms.rs:24-27 *)
  | Form_calculation_order actions => [(lit "CO", refs actions)]   (* src/forms.rs:32-38 *)
  | Form_default_resources calls => [(lit "DR", Resources_obj calls)]   (* src/forms.rs:44-46 *)
  | Form_default_appearance default => [(lit "DA", OPrim (PStr default))]   (* src/forms.rs:51-54 *)
  | Form_quadding default => [(lit "Q", OPrim (PInt (Quadding_int default)))]   (* src/forms.rs:58-61 *)
  end.
(** src/forms.rs:12: no entries. *)
Definition Form_header : list (bytes * obj) := [].
Definition Form_calls : Type := list (or_raw Form_call).
Definition Form_obj (cs : Form_calls) : obj := dict_writer Form_header Form_entries cs.
