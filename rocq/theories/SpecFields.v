(** Specification: the details of the fields of interactive forms, and of the form itself (ISO 32000-2, 12.7). *)

From Coq Require Import ZArith List Bool.
From Verif Require ModelCmap ModelContent SpecContent SpecForm.
From Verif Require Import Bytes ModelFloat ModelBuf ModelObject ModelChunk ModelColor ModelSmall ModelPdf ModelTw ModelEnums ModelRoles ModelTwArgs
  ModelTwFiles ModelTwGraphics ModelTwAnnot ModelTwForms ModelTwAttr ModelTwXObj ModelTwFonts ModelTwDoc ModelFontDesc ModelDoc
  SpecLex SpecObj SpecText SpecMeans SpecRenum SpecChunk SpecFile SpecPdf SpecTyped SpecColor SpecSmall SpecTw SpecEnums SpecRoles SpecTwArgs
  SpecTwFiles SpecTwGraphics SpecTwAnnot SpecTwForms SpecTwAttr SpecTwXObj SpecTwFonts SpecTwDoc SpecFontDesc SpecDoc SpecPages SpecExtract SpecNav SpecViews SpecTagged SpecPaint SpecFunctions SpecActions SpecPresent SpecColors SpecImages SpecAppear SpecAttrs.
Import ListNotations.
Local Open Scope Z_scope.

(** ** What is read *)

(** What a signature locks (table 236), who may sign and how (237 to 239), fields (226 and those for their kinds). Flags are given by the positions of the
    bits that are set, from 1. Options are given by what is shown and, if it is different, what is exported. *)
Record lock_of := mkLockOf { sl_action : option SignatureLockAction; sl_fields : option (list (list Z)); sl_permissions : option AccessPermissions }.
Record mdp_of := mkMdpOf { md_type : option MdpSignatureType }.
Record stamp_of := mkStampOf { ts_url : option bytes; ts_required : option bool }.
Record certificate_of (N : Type) := mkCertificateOf { sc_flags : option (list Z); sc_subject : option (list bytes); sc_policy : option bytes; sc_hash : option bytes;
    sc_algorithm : option bytes; sc_names : option (list (list (bytes * N))); sc_usage : option (list CertificateKeyUsage); sc_issuer : option (list bytes);
    sc_oid : option (list bytes); sc_url : option bytes; sc_url_type : option CertificateUrlType }.
Arguments mkCertificateOf {N}. Arguments sc_flags {N}. Arguments sc_subject {N}. Arguments sc_policy {N}. Arguments sc_hash {N}. Arguments sc_algorithm {N}.
    Arguments sc_names {N}. Arguments sc_usage {N}. Arguments sc_issuer {N}. Arguments sc_oid {N}. Arguments sc_url {N}. Arguments sc_url_type {N}.
Record seed_of (N : Type) := mkSeedOf { ss_flags : option (list Z); ss_filter : option bytes; ss_encodings : option (list bytes);
    ss_digests : option (list SignatureDigestMethod); ss_version : option SeedValueParserVersion; ss_certificate : option (certificate_of N);
    ss_reasons : option (list (list Z)); ss_mdp : option mdp_of; ss_stamp : option stamp_of; ss_attestations : option (list (list Z)); ss_revocation : option bool;
    ss_locking : option LockingIntent }.
Arguments mkSeedOf {N}. Arguments ss_flags {N}. Arguments ss_filter {N}. Arguments ss_encodings {N}. Arguments ss_digests {N}. Arguments ss_version {N}.
    Arguments ss_certificate {N}. Arguments ss_reasons {N}. Arguments ss_mdp {N}. Arguments ss_stamp {N}. Arguments ss_attestations {N}. Arguments ss_revocation {N}.
    Arguments ss_locking {N}.
Record field_parts (N : Type) := mkFieldParts { fq_alternate : option (list Z); fq_mapping : option (list Z); fq_parent : option Z;
    fq_options : option (list (list Z * option (list Z))); fq_style : option (list Z); fq_rich : option (list Z); fq_top : option Z; fq_indices : option (list Z);
    fq_lock : option lock_of; fq_seed : option (seed_of N) }.
Arguments mkFieldParts {N}. Arguments fq_alternate {N}. Arguments fq_mapping {N}. Arguments fq_parent {N}. Arguments fq_options {N}. Arguments fq_style {N}.
    Arguments fq_rich {N}. Arguments fq_top {N}. Arguments fq_indices {N}. Arguments fq_lock {N}. Arguments fq_seed {N}.
(** A field with its name (the parts from the root on), its default value and greatest length, which it may have from above, and its own parts. *)
Record part_read := mkPartRead { pr_name : list (list Z); pr_default : option SpecForm.field_value; pr_max : option Z; pr_own : field_parts val }.
(** The form: signature flags, the order of calculations, the fonts among the resources (table 224). *)
Record form_settings := mkSettings { fs_flags : option (list Z); fs_order : option (list Z); fs_fonts : option (list (bytes * Z)) }.

(** ** The reader *)

(** 0 for approval signatures; otherwise what certification signatures permit (table 237, MDP). *)
Definition read_mdp (v : val) : option MdpSignatureType :=
  match v with
  | VInt 0 => Some MdpSignatureType_ApprovalSignature
  | _ => option_map MdpSignatureType_CertificationSignature (read_numbered AccessPermissions_table v)
  end.
Definition read_required (v : val) : option bool := match v with VInt 0 => Some false | VInt 1 => Some true | _ => None end.
(** Nine characters: 1 for must, 0 for must not, X for either (table 238, KeyUsage). *)
Definition read_key_usage (v : val) : option CertificateKeyUsage :=
  match v with
  | VStr s => match map read_key_usage_char s with
              | [Some a; Some b; Some c; Some d; Some e; Some f; Some g; Some h; Some i] => Some (mkKeyUsage a b c d e f g h i)
              | _ => None
              end
  | _ => None
  end.
Definition read_entries (v : val) : option (list (bytes * val)) := match v with VDict l => Some l | _ => None end.
Definition read_option (v : val) : option (list Z * option (list Z)) :=
  match v with
  | VArr [e; t] => bind (read_textstring e) (fun e => bind (read_textstring t) (fun t => Some (t, Some e)))
  | _ => bind (read_textstring v) (fun t => Some (t, None))
  end.
Section Reader.
  Variable resolved : Z -> option indirect.
  Definition read_lock_of (v : val) : option lock_of :=
    bind (object_dict resolved v) (fun d =>
    bind (optional (lit "Action") d (read_named SignatureLockAction_table)) (fun x0 => bind (optional (lit "Fields") d (read_list read_textstring)) (fun x1 =>
    bind (optional (lit "P") d (read_numbered AccessPermissions_table)) (fun x2 =>
    Some (mkLockOf x0 x1 x2))))).
  Definition read_mdp_of (v : val) : option mdp_of :=
    bind (object_dict resolved v) (fun d =>
    bind (optional (lit "P") d read_mdp) (fun x0 =>
    Some (mkMdpOf x0))).
  Definition read_stamp_of (v : val) : option stamp_of :=
    bind (object_dict resolved v) (fun d =>
    bind (optional (lit "URL") d read_string) (fun x0 => bind (optional (lit "Ff") d read_required) (fun x1 =>
    Some (mkStampOf x0 x1)))).
  Definition read_certificate_of (v : val) : option (certificate_of val) :=
    bind (object_dict resolved v) (fun d =>
    bind (optional (lit "Ff") d flag_positions) (fun x0 => bind (optional (lit "Subject") d (read_list read_string)) (fun x1 =>
    bind (optional (lit "SignaturePolicyOID") d read_string) (fun x2 => bind (optional (lit "SignaturePolicyHashValue") d read_string) (fun x3 =>
    bind (optional (lit "SignaturePolicyHashAlgorithm") d read_name) (fun x4 => bind (optional (lit "SubjectDN") d (read_list read_entries)) (fun x5 =>
    bind (optional (lit "KeyUsage") d (read_list read_key_usage)) (fun x6 => bind (optional (lit "Issuer") d (read_list read_string)) (fun x7 =>
    bind (optional (lit "OID") d (read_list read_string)) (fun x8 => bind (optional (lit "URL") d read_string) (fun x9 =>
    bind (optional (lit "URLType") d (read_open CertificateUrlType_table CertificateUrlType_Custom)) (fun x10 =>
    Some (mkCertificateOf x0 x1 x2 x3 x4 x5 x6 x7 x8 x9 x10))))))))))))).
  Definition read_seed_of (v : val) : option (seed_of val) :=
    bind (object_dict resolved v) (fun d =>
    bind (optional (lit "Ff") d flag_positions) (fun x0 => bind (optional (lit "Filter") d read_name) (fun x1 =>
    bind (optional (lit "SubFilter") d (read_list read_name)) (fun x2 =>
    bind (optional (lit "DigestMethod") d (read_list (read_named SignatureDigestMethod_table))) (fun x3 =>
    bind (optional (lit "V") d (read_numbered SeedValueParserVersion_table)) (fun x4 => bind (optional (lit "Cert") d read_certificate_of) (fun x5 =>
    bind (optional (lit "Reasons") d (read_list read_textstring)) (fun x6 => bind (optional (lit "MDP") d read_mdp_of) (fun x7 =>
    bind (optional (lit "TimeStamp") d read_stamp_of) (fun x8 => bind (optional (lit "LegalAttestation") d (read_list read_textstring)) (fun x9 =>
    bind (optional (lit "AddRevInfo") d read_boolean) (fun x10 => bind (optional (lit "LockDocument") d (read_named LockingIntent_table)) (fun x11 =>
    Some (mkSeedOf x0 x1 x2 x3 x4 x5 x6 x7 x8 x9 x10 x11)))))))))))))).
  Definition read_field_parts (v : val) : option (field_parts val) :=
    bind (object_dict resolved v) (fun d =>
    bind (optional (lit "TU") d read_textstring) (fun x0 => bind (optional (lit "TM") d read_textstring) (fun x1 =>
    bind (optional (lit "Parent") d read_id) (fun x2 => bind (optional (lit "Opt") d (read_list read_option)) (fun x3 =>
    bind (optional (lit "DS") d read_textstring) (fun x4 => bind (optional (lit "RV") d read_textstring) (fun x5 => bind (optional (lit "TI") d read_int) (fun x6 =>
    bind (optional (lit "I") d (read_list read_int)) (fun x7 => bind (optional (lit "Lock") d read_lock_of) (fun x8 =>
    bind (optional (lit "SV") d read_seed_of) (fun x9 =>
    Some (mkFieldParts x0 x1 x2 x3 x4 x5 x6 x7 x8 x9)))))))))))).

  (** A field, then the fields below it. *)
  Fixpoint read_part (depth : nat) (names : list (list Z)) (default : option SpecForm.field_value) (most : option Z) (v : val) : option (list part_read) :=
    match depth with
    | O => None
    | S n =>
        bind (object_dict resolved v) (fun d =>
        bind (required (lit "T") d read_textstring) (fun name =>
        bind (SpecForm.present (lit "DV") d SpecForm.read_value) (fun dv =>
        bind (optional (lit "MaxLen") d read_int) (fun ml =>
        bind (read_field_parts v) (fun own =>
        let names := names ++ [name] in
        let default := SpecForm.or_else dv default in
        let most := SpecForm.or_else ml most in
        let this := mkPartRead names default most own in
        match lookup (lit "Kids") d with
        | None => Some [this]
        | Some (VArr kids) =>
            bind (SpecNav.all_of (map (object_dict resolved) kids)) (fun ds =>
            if existsb SpecForm.has_name ds then option_map (cons this) (concat_all (map (read_part n names default most) kids)) else Some [this])
        | Some _ => None
        end)))))
    end.
  Definition read_named_ids (v : val) : option (list (bytes * Z)) :=
    bind (object_dict resolved v) (fun d => SpecNav.all_of (map (fun e => option_map (pair (fst e)) (read_id (snd e))) d)).
End Reader.
Definition read_parts decode (depth : nat) (file : bytes) : option (form_settings * list part_read) :=
  bind (document_catalog decode file) (fun c =>
  required (lit "AcroForm") c (fun f => bind (object_dict (resolve decode file) f) (fun form =>
  bind (optional (lit "SigFlags") form flag_positions) (fun flags =>
  bind (optional (lit "CO") form (read_list read_id)) (fun order =>
  bind (optional (lit "DR") form (fun r =>
    bind (object_dict (resolve decode file) r) (fun r => required (lit "Font") r (read_named_ids (resolve decode file))))) (fun fonts =>
  required (lit "Fields") form (fun fs =>
  match fs with
  | VArr l => option_map (pair (mkSettings flags order fonts)) (concat_all (map (read_part (resolve decode file) depth [] None None) l))
  | _ => None
  end))))))).

(** ** The program *)

Definition positions_of {F} (pos : F -> Z) (l : list F) : list Z := List.filter (fun p => existsb (fun f => pos f =? p) l) (map Z.of_nat (seq 1 32)).
(** A custom type is not one of the standard's. *)
Definition url_apart (x : CertificateUrlType) : Prop := match x with CertificateUrlType_Custom n => by_name n CertificateUrlType_table = None | _ => True end.
(** The options of buttons, and those of choices. *)
Definition options_shown (c : ChoiceOptions_call) : list (textlike * option (list Z)) :=
  match c with
  | ChoiceOptions_option t => [(t, None)]
  | ChoiceOptions_options l => map (fun t => (t, None)) l
  | ChoiceOptions_export t e => [(t, Some e)]
  | ChoiceOptions_exports l => map (fun x => (fst x, Some (snd x))) l
  end.
Definition options_written (given : list (list Z) + ChoiceOptions_calls) (l : list (list Z * option (list Z))) : Prop :=
  match given with
  | inl texts => l = map (fun t => (t, None)) texts
  | inr calls => exists cs, calls = map TypedItem cs /\ flat_map options_shown cs = map (fun x => (TextPlain (fst x), snd x)) l
  end.
Section Written.
  Variable ops : list doc_op.
  Definition lock_of_written (calls : SignatureFieldLock_calls) (x : lock_of) : Prop :=
    called (lit "Action") <| SignatureFieldLock_action x => x |> calls (sl_action x) /\
    called (lit "Fields") <| SignatureFieldLock_fields x => x |> calls (sl_fields x) /\
    called (lit "P") <| SignatureFieldLock_access_permissions x => x |> calls (sl_permissions x).
  Definition mdp_of_written (calls : SignatureModificationDetectionPrevention_calls) (x : mdp_of) : Prop :=
    called (lit "P") (fun c => match c with SignatureModificationDetectionPrevention_signature_type x => [inl x] end) calls (md_type x).
  Definition stamp_of_written (calls : SignatureTimeStamp_calls) (x : stamp_of) : Prop :=
    called (lit "URL") <| SignatureTimeStamp_url x => x |> calls (ts_url x) /\
    called (lit "Ff") <| SignatureTimeStamp_required x => x |> calls (ts_required x).
  Definition certificate_of_written (calls : CertificateSeedValue_calls) (x : (certificate_of obj)) : Prop :=
    part_given (called (lit "Ff") <| CertificateSeedValue_constraint_flags x => x |> calls) (fun l x => x = positions_of CertificateSeedValueFlags_pos l) (sc_flags x) /\
    called (lit "Subject") <| CertificateSeedValue_subject x => x |> calls (sc_subject x) /\
    called (lit "SignaturePolicyOID") <| CertificateSeedValue_signature_policy_oid x => x |> calls (sc_policy x) /\
    called (lit "SignaturePolicyHashValue") <| CertificateSeedValue_signature_policy_hash_value x => x |> calls (sc_hash x) /\
    part_given (called (lit "SignaturePolicyHashAlgorithm") (fun c => match c with CertificateSeedValue_signature_policy_hash_algorithm x => [inl (inl x)] | CertificateSeedValue_signature_policy_commitment_type x => [inl (inr x)] | _ => [] end) calls) (fun x y => x = inl y) (sc_algorithm x) /\
    called (lit "SubjectDN") <| CertificateSeedValue_subject_dn x => x |> calls (sc_names x) /\
    called (lit "KeyUsage") <| CertificateSeedValue_key_usage x => x |> calls (sc_usage x) /\
    called (lit "Issuer") <| CertificateSeedValue_issuer x => x |> calls (sc_issuer x) /\
    called (lit "OID") <| CertificateSeedValue_oid x => x |> calls (sc_oid x) /\
    called (lit "URL") <| CertificateSeedValue_url x => x |> calls (sc_url x) /\
    part_given (called (lit "URLType") <| CertificateSeedValue_url_type x => x |> calls) (fun x y => x = y /\ url_apart x) (sc_url_type x).
  Definition seed_of_written (calls : SignatureSeedValue_calls) (x : (seed_of obj)) : Prop :=
    part_given (called (lit "Ff") <| SignatureSeedValue_constraint_flags x => x |> calls) (fun l x => x = positions_of SignatureSeedValueFlags_pos l) (ss_flags x) /\
    called (lit "Filter") <| SignatureSeedValue_filter x => x |> calls (ss_filter x) /\
    called (lit "SubFilter") <| SignatureSeedValue_sub_filter x => x |> calls (ss_encodings x) /\
    called (lit "DigestMethod") <| SignatureSeedValue_digest_method x => x |> calls (ss_digests x) /\
    called (lit "V") <| SignatureSeedValue_version x => x |> calls (ss_version x) /\
    part_given (called (lit "Cert") <| SignatureSeedValue_certificate x => x |> calls) certificate_of_written (ss_certificate x) /\
    called (lit "Reasons") <| SignatureSeedValue_reasons x => x |> calls (ss_reasons x) /\
    part_given (called (lit "MDP") <| SignatureSeedValue_modification_detection_prevention x => x |> calls) mdp_of_written (ss_mdp x) /\
    part_given (called (lit "TimeStamp") <| SignatureSeedValue_timestamp x => x |> calls) stamp_of_written (ss_stamp x) /\
    called (lit "LegalAttestation") <| SignatureSeedValue_legal_attestation x => x |> calls (ss_attestations x) /\
    called (lit "AddRevInfo") <| SignatureSeedValue_add_rev_info x => x |> calls (ss_revocation x) /\
    part_given (called (lit "LockDocument") (fun c => match c with SignatureSeedValue_lock_document x => [inl (inl x)] | SignatureSeedValue_appearance_filter x => [inl (inr x)] | _ => [] end) calls) (fun x y => x = inl y) (ss_locking x).
  (** Locks and seed values are objects of their own. *)
  Definition lock_object (id : Z) (x : lock_of) : Prop := exists calls, In (DocTyped id (Ck_signature_field_lock calls)) ops /\ lock_of_written calls x.
  Definition seed_object (id : Z) (x : seed_of obj) : Prop := exists calls, In (DocTyped id (Ck_signature_seed_value calls)) ops /\ seed_of_written calls x.
  Definition field_parts_written (calls : Field_calls) (x : (field_parts obj)) : Prop :=
    SpecForm.field_called (lit "TU") <| Field_alternate_name x => x |> (fun _ => []) calls (option_map TextPlain (fq_alternate x)) /\
    SpecForm.field_called (lit "TM") <| Field_mapping_name x => x |> (fun _ => []) calls (fq_mapping x) /\
    SpecForm.field_called (lit "Parent") <| Field_parent i => i |> <| Annotation_parent i => i |> calls (fq_parent x) /\
    part_given (SpecForm.field_called (lit "Opt") (fun c => match c with Field_button_options x => [inl (inl x)] | Field_choice_options x => [inl (inr x)] | _ => [] end) (fun _ => []) calls) options_written (fq_options x) /\
    SpecForm.field_called (lit "DS") <| Field_vartext_default_style x => x |> (fun _ => []) calls (fq_style x) /\
    SpecForm.field_called (lit "RV") <| Field_vartext_rich_value x => x |> (fun _ => []) calls (option_map TextPlain (fq_rich x)) /\
    SpecForm.field_called (lit "TI") <| Field_choice_top_index x => x |> (fun _ => []) calls (fq_top x) /\
    SpecForm.field_called (lit "I") <| Field_choice_indices x => x |> (fun _ => []) calls (fq_indices x) /\
    part_given (SpecForm.field_called (lit "Lock") <| Field_signature_field_lock x => x |> (fun _ => []) calls) lock_object (fq_lock x) /\
    part_given (SpecForm.field_called (lit "SV") <| Field_signature_seed_value x => x |> (fun _ => []) calls) seed_object (fq_seed x).
End Written.

(** The call that gives a default value. *)
Definition default_call (c : Field_call) : list (Field_call + obj) :=
  match c with
  | Field_text_default_value _ | Field_checkbox_default_value _ | Field_radio_default_value _ | Field_choice_default_value _ | Field_choice_default_values _ => [inl c]
  | _ => []
  end.
Definition default_asks (c : Field_call) : option SpecForm.value_asked :=
  match c with
  | Field_text_default_value (TextPlain t) => Some (SpecForm.AskText t)
  | Field_checkbox_default_value s => Some (SpecForm.AskCheck s)
  | Field_radio_default_value n => Some (SpecForm.AskName n)
  | Field_choice_default_value (Some t) => Some (SpecForm.AskText t)
  | Field_choice_default_value None => Some SpecForm.AskNull
  | Field_choice_default_values l => Some (SpecForm.AskTexts l)
  | _ => None
  end.
(** A field with fields below it, or one with widgets or nothing below it. *)
Inductive part :=
| PartNode (id : Z) (name : list Z) (default : option SpecForm.value_asked) (most : option Z) (own : field_parts obj) (kids : list part)
| PartLeaf (id : Z) (name : list Z) (default : option SpecForm.value_asked) (most : option Z) (own : field_parts obj) (widgets : option (list Z)).
Definition part_id (p : part) : Z := match p with PartNode id _ _ _ _ _ | PartLeaf id _ _ _ _ _ => id end.
Definition named_part (ops : list doc_op) (id : Z) (name : list Z) (default : option SpecForm.value_asked) (most : option Z) (own : field_parts obj) (kids : option (list Z)) : Prop :=
  exists calls, In (DocTyped id (Ck_form_field calls)) ops /\ SpecForm.field_name calls (Some (TextPlain name)) /\
    (exists c, SpecForm.field_called (lit "DV") default_call (fun _ => []) calls c /\ option_map default_asks c = option_map Some default) /\
    SpecForm.field_called (lit "MaxLen") <| Field_text_max_len n => n |> (fun _ => []) calls most /\
    field_parts_written ops calls own /\ SpecForm.field_kids calls kids.
Fixpoint part_written (ops : list doc_op) (p : part) : Prop :=
  match p with
  | PartNode id name default most own kids =>
      kids <> [] /\ named_part ops id name default most own (Some (map part_id kids)) /\
      (fix all l := match l with [] => True | p :: l => part_written ops p /\ all l end) kids
  | PartLeaf id name default most own widgets =>
      named_part ops id name default most own widgets /\ match widgets with None => True | Some ids => Forall (SpecForm.widget_written ops) ids end
  end.
Definition parts_written (ops : list doc_op) (catalog : Catalog_calls) (s : form_settings) (parts : list part) : Prop :=
  exists calls, called (lit "AcroForm") <| Catalog_form c => c |> catalog (Some calls) /\
    part_given (called (lit "SigFlags") <| Form_sig_flags l => l |> calls) (fun l x => x = positions_of SigFlags_pos l) (fs_flags s) /\
    called (lit "CO") <| Form_calculation_order l => l |> calls (fs_order s) /\
    part_given (called (lit "DR") <| Form_default_resources c => c |> calls) (fun c x => fonts_given c (Some x)) (fs_fonts s) /\
    called (lit "Fields") <| Form_fields l => l |> calls (Some (map part_id parts)) /\ Forall (part_written ops) parts.

(** ** What is read is what is asked for *)

Definition certificate_of_is (x : (certificate_of obj)) (r : (certificate_of val)) : Prop :=
  sc_flags r = sc_flags x /\ sc_subject r = sc_subject x /\ sc_policy r = sc_policy x /\ sc_hash r = sc_hash x /\ sc_algorithm r = sc_algorithm x /\
    optionally (Forall2 entries_are) (sc_names x) (sc_names r) /\ sc_usage r = sc_usage x /\ sc_issuer r = sc_issuer x /\ sc_oid r = sc_oid x /\
    sc_url r = sc_url x /\ sc_url_type r = sc_url_type x.
Definition seed_of_is (x : (seed_of obj)) (r : (seed_of val)) : Prop :=
  ss_flags r = ss_flags x /\ ss_filter r = ss_filter x /\ ss_encodings r = ss_encodings x /\ ss_digests r = ss_digests x /\ ss_version r = ss_version x /\
    optionally certificate_of_is (ss_certificate x) (ss_certificate r) /\ ss_reasons r = ss_reasons x /\ ss_mdp r = ss_mdp x /\ ss_stamp r = ss_stamp x /\
    ss_attestations r = ss_attestations x /\ ss_revocation r = ss_revocation x /\ ss_locking r = ss_locking x.
Definition field_parts_is (x : (field_parts obj)) (r : (field_parts val)) : Prop :=
  fq_alternate r = fq_alternate x /\ fq_mapping r = fq_mapping x /\ fq_parent r = fq_parent x /\ fq_options r = fq_options x /\ fq_style r = fq_style x /\
    fq_rich r = fq_rich x /\ fq_top r = fq_top x /\ fq_indices r = fq_indices x /\ fq_lock r = fq_lock x /\ optionally seed_of_is (fq_seed x) (fq_seed r).
(** The fields in order, each before those below it. *)
Fixpoint asked_parts (names : list (list Z)) (default : option SpecForm.field_value) (most : option Z) (p : part) : list (list (list Z) * option SpecForm.field_value * option Z * field_parts obj) :=
  match p with
  | PartNode _ name dv ml own kids =>
      let names := names ++ [name] in
      let default := SpecForm.or_else (bind dv SpecForm.asked_value) default in
      let most := SpecForm.or_else ml most in
      (names, default, most, own) :: flat_map (asked_parts names default most) kids
  | PartLeaf _ name dv ml own _ => [(names ++ [name], SpecForm.or_else (bind dv SpecForm.asked_value) default, SpecForm.or_else ml most, own)]
  end.
Definition part_is (x : list (list Z) * option SpecForm.field_value * option Z * field_parts obj) (r : part_read) : Prop :=
  let '(names, default, most, own) := x in pr_name r = names /\ pr_default r = default /\ pr_max r = most /\ field_parts_is own (pr_own r).
