(** C89: the details of forms and their fields, from the trailer on. *)

From Coq Require Import ZArith List Bool Lia.
From Verif Require SpecInfo ModelCmap ModelContent SpecContent SpecForm PropForm.
From Verif Require Import Bytes ModelFloat ModelBuf ModelObject ModelChunk ModelColor ModelSmall ModelPdf ModelTw ModelEnums ModelRoles ModelTwArgs
  ModelTwFiles ModelTwGraphics ModelTwAnnot ModelTwForms ModelTwAttr ModelTwXObj ModelTwFonts ModelTwDoc ModelFontDesc ModelDoc
  SpecLex SpecObj SpecText SpecMeans SpecRenum SpecChunk SpecFile SpecPdf SpecTyped SpecColor SpecSmall SpecTw SpecEnums SpecRoles SpecTwArgs
  SpecTwFiles SpecTwGraphics SpecTwAnnot SpecTwForms SpecTwAttr SpecTwXObj SpecTwFonts SpecTwDoc SpecFontDesc SpecDoc SpecPages SpecExtract SpecNav SpecViews SpecTagged SpecPaint SpecFunctions SpecActions SpecPresent SpecColors SpecImages SpecAppear SpecAttrs SpecMarks SpecFields
  ProofBasic ProofTree ProofTyped ProofTw ProofTwDoc PropDoc PropPdf2 PropPages PropExtract PropNav PropTagged PropInfo PropPaint PropFunctions PropColors PropActions PropPresent PropImages PropAppear PropAttrs.
Import ListNotations.
Local Open Scope Z_scope.

Lemma texts_found l v : is_array_of is_text l v -> read_list read_textstring v = Some l.
Proof. intro H. rewrite <- (map_id l). exact (list_found is_text read_textstring (fun x => x) text_found l v H). Qed.
Lemma names_found l v : is_names l v -> read_list read_name v = Some l.
Proof. intro H. rewrite <- (map_id l). exact (list_found is_name read_name (fun x => x) name_found l v H). Qed.
Lemma wholes_found l v : is_array_of is_int l v -> read_list read_int v = Some l.
Proof. intro H. rewrite <- (map_id l). exact (list_found is_int read_int (fun x => x) whole_found l v H). Qed.
Lemma digests_found l v : is_array_of is_SignatureDigestMethod l v -> read_list (read_named SignatureDigestMethod_table) v = Some l.
Proof. intro H. rewrite <- (map_id l). exact (list_found is_SignatureDigestMethod _ (fun x => x) (enum_found _) l v H). Qed.
Lemma flags_found {F} (pos : F -> Z) l x v : x = positions_of pos l -> is_flags pos l v -> flag_positions v = Some x.
Proof.
  intros -> (z & -> & Z0 & H). cbn [flag_positions]. f_equal. unfold positions_of. apply filter_ext_in. intros p I.
  assert (1 <= p). { apply in_map_iff in I. destruct I as (k & <- & I). apply in_seq in I. lia. }
  apply eq_true_iff_eq. rewrite (H (p - 1)) by lia. rewrite existsb_exists.
  split; intros (f & I1 & I2); exists f; (split; [exact I1|]); lia.
Qed.
Lemma mdp_found x v : is_MdpSignatureType x v -> read_mdp v = Some x.
Proof.
  destruct x as [|p]; cbn [is_MdpSignatureType]; [intros ->; reflexivity|]. intros [(n & -> & H) N]. unfold read_mdp, read_numbered. cbn [read_int bind].
  destruct n as [|n|n]; [congruence| |]; rewrite H; reflexivity.
Qed.
Lemma required_found (x : bool) v : is_int (if x then 1 else 0) v -> read_required v = Some x.
Proof. unfold is_int. intros ->. destruct x; reflexivity. Qed.
Definition algorithm_reads (x : bytes + list bytes) : val -> Prop := match x with inl n => is_name n | inr l => is_array_of is_str l end.
Lemma algorithm_found x (y : bytes) v : x = inl y -> algorithm_reads x v -> read_name v = Some y.
Proof. intros ->. exact (name_found y v). Qed.
Definition locking_reads (x : LockingIntent + list Z) : val -> Prop := match x with inl i => is_LockingIntent i | inr t => is_text t end.
Lemma locking_found x (y : LockingIntent) v : x = inl y -> locking_reads x v -> read_named LockingIntent_table v = Some y.
Proof. intros ->. exact (enum_found _ y v). Qed.
Lemma usage_found x v : is_key_usage x v -> read_key_usage v = Some x.
Proof.
  intros (s & -> & H). destruct x as [a b c d e f g h i]. cbn [digital_signature non_repudiation key_encipherment data_encipherment key_agreement key_cert_sign crl_sign encipher_only decipher_only map] in H.
  unfold read_key_usage. rewrite H. reflexivity.
Qed.
Lemma usages_found l v : is_array_of is_key_usage l v -> read_list read_key_usage v = Some l.
Proof. intro H. rewrite <- (map_id l). exact (list_found is_key_usage _ (fun x => x) usage_found l v H). Qed.
Lemma entries_same l v : means (ODict l) v -> exists r, v = VDict r /\ entries_are l r.
Proof.
  intro M. inversion M as [| | | | | | | | | | | |? ws F]; subst. exists ws. split; [reflexivity|]. unfold entries_are. clear M.
  induction F as [|e x l ws H F IH]; constructor; assumption.
Qed.
Lemma dns_found l v : is_array_of (fun d => means (ODict d)) l v -> exists r, read_list read_entries v = Some r /\ Forall2 entries_are l r.
Proof.
  intros (vs & -> & F). cbn [read_list]. induction F as [|d v l vs M F (r & E & X)]; [exists []; split; [reflexivity|constructor]|].
  destruct (entries_same d v M) as (w & -> & Y). exists (w :: r). cbn [map SpecNav.all_of read_entries]. rewrite E. split; [reflexivity|constructor; assumption].
Qed.
Lemma url_found x v : url_apart x -> is_CertificateUrlType x v -> read_open CertificateUrlType_table CertificateUrlType_Custom v = Some x.
Proof.
  intros A V. destruct x; try (apply open_found; exact V). cbn [url_apart is_CertificateUrlType] in *. subst v. unfold read_open. cbn [read_name bind]. rewrite A. reflexivity.
Qed.
Definition options_read (x : list (list Z) + ChoiceOptions_calls) : val -> Prop := match x with inl l => is_array_of is_text l | inr c => ChoiceOptions_reads c end.
Definition shown_reads (x : textlike * option (list Z)) : val -> Prop :=
  match snd x with None => is_textlike (fst x) | Some e => is_array [is_text e; is_textlike (fst x)] end.
Lemma shown_reads_found t e v : shown_reads (TextPlain t, e) v -> read_option v = Some (t, e).
Proof.
  unfold shown_reads. cbn [fst snd]. destruct e as [e|].
  - intros (vs & -> & F). inversion F as [|? a ? l1 F1 G1]; subst. inversion G1 as [|? b ? l2 F2 G2]; subst. inversion G2; subst. cbn [read_option].
    rewrite (text_found e a F1). cbn [bind]. rewrite (text_found t b F2). reflexivity.
  - intro V. pose proof (text_found t v V) as E. destruct V as (s & -> & _). unfold read_option. rewrite E. reflexivity.
Qed.
Lemma choice_doc c : ChoiceOptions_doc c = map shown_reads (options_shown c).
Proof. destruct c; cbn [ChoiceOptions_doc options_shown map]; try reflexivity; rewrite map_map; reflexivity. Qed.
Lemma options_found given l v : options_written given l -> options_read given v -> read_list read_option v = Some l.
Proof.
  destruct given as [texts|calls]; cbn [options_written options_read].
  - intros -> V. exact (list_found is_text read_option (fun t => (t, None)) (fun t v H => shown_reads_found t None v H) texts v V).
  - intros (cs & -> & E) V. unfold ChoiceOptions_reads, array_reads in V. unfold is_array in V. destruct V as (vs & -> & F).
    replace (flat_map _ (map TypedItem cs)) with (map shown_reads (flat_map options_shown cs)) in F.
    2: { clear. induction cs as [|c cs IH]; [reflexivity|]. cbn [flat_map map]. rewrite map_app, <- choice_doc, IH. reflexivity. }
    rewrite E in F. clear E. cbn [read_list]. revert vs F. induction l as [|[t e] l IH]; intros vs F; inversion F as [|? v ? vs' F1 F2]; subst; [reflexivity|].
    cbn [map SpecNav.all_of]. rewrite (shown_reads_found t e v F1), (IH vs' F2). reflexivity.
Qed.
Definition default_reads (c : Field_call) : val -> Prop :=
  match c with
  | Field_text_default_value t => is_textlike t
  | Field_checkbox_default_value s => is_CheckBoxState s
  | Field_radio_default_value n => is_name n
  | Field_choice_default_value t => is_text_or_null t
  | Field_choice_default_values l => is_array_of is_text l
  | _ => fun _ => False
  end.
Lemma default_entry calls c v : SpecForm.field_called (lit "DV") default_call (fun _ => []) calls c -> option_map default_asks c = option_map Some v ->
  PropForm.value_entry (lit "DV") (writer_doc Field_head Field_doc calls) v.
Proof.
  intros H V. PropForm.field_call H default_reads. unfold PropForm.value_entry.
  destruct v as [v|]; (destruct c as [c|]; [|discriminate || (left; exact H)]); [|discriminate]. cbn [option_map] in V. apply some_inj in V.
  destruct c; try discriminate; cbn [default_asks] in V; cbn [option_map default_reads entry_or_none] in H.
  - apply some_inj in V. subst v. left. exact H.
  - apply some_inj in V. subst v. left. exact H.
  - destruct value; [|discriminate..]. apply some_inj in V. subst v. left. exact H.
  - destruct option as [t|]; apply some_inj in V; subst v; right; exact H.
  - apply some_inj in V. subst v. left. exact H.
Qed.

Section Walk.
  Variables (resolved : Z -> option indirect) (ops : list doc_op).
  Hypothesis R : Forall (fun op => doc_op_reads op resolved) ops.

  Lemma lock_of_found calls x v : lock_of_written calls x -> SignatureFieldLock_reads calls v -> (read_lock_of resolved) v = Some x.
  Proof using Type.
    intros (H0 & H1 & H2) Q. destruct (dict_is _ _ Q) as [d ->]. destruct x as [p0 p1 p2].
    cbn [sl_action sl_fields sl_permissions] in *.
    entries H0 SignatureFieldLock_head SignatureFieldLock_doc is_SignatureLockAction.
    entries H1 SignatureFieldLock_head SignatureFieldLock_doc (is_array_of is_text).
    entries H2 SignatureFieldLock_head SignatureFieldLock_doc is_AccessPermissions.
    unfold read_lock_of. cbn [object_dict bind].
    rewrite (same_found (lit "Action") is_SignatureLockAction _ _ _ p0 Q H0 (enum_found _)). cbn [bind].
    rewrite (same_found (lit "Fields") (is_array_of is_text) _ _ _ p1 Q H1 texts_found). cbn [bind].
    rewrite (same_found (lit "P") is_AccessPermissions _ _ _ p2 Q H2 (numbered_found _)). cbn [bind].
    reflexivity.
  Qed.
  Lemma mdp_of_found calls x v : mdp_of_written calls x -> SignatureModificationDetectionPrevention_reads calls v -> (read_mdp_of resolved) v = Some x.
  Proof using Type.
    unfold mdp_of_written. intros H0 Q. destruct (dict_is _ _ Q) as [d ->]. destruct x as [p0].
    cbn [md_type] in *.
    entries H0 SignatureModificationDetectionPrevention_head SignatureModificationDetectionPrevention_doc is_MdpSignatureType.
    unfold read_mdp_of. cbn [object_dict bind].
    rewrite (same_found (lit "P") is_MdpSignatureType _ _ _ p0 Q H0 mdp_found). cbn [bind].
    reflexivity.
  Qed.
  Lemma stamp_of_found calls x v : stamp_of_written calls x -> SignatureTimeStamp_reads calls v -> (read_stamp_of resolved) v = Some x.
  Proof using Type.
    intros (H0 & H1) Q. destruct (dict_is _ _ Q) as [d ->]. destruct x as [p0 p1].
    cbn [ts_url ts_required] in *.
    entries H0 SignatureTimeStamp_head SignatureTimeStamp_doc is_str.
    entries H1 SignatureTimeStamp_head SignatureTimeStamp_doc (fun b => is_int (if (b : bool) then 1 else 0)).
    unfold read_stamp_of. cbn [object_dict bind].
    rewrite (same_found (lit "URL") is_str _ _ _ p0 Q H0 str_found). cbn [bind].
    rewrite (same_found (lit "Ff") (fun b => is_int (if (b : bool) then 1 else 0)) _ _ _ p1 Q H1 required_found). cbn [bind].
    reflexivity.
  Qed.
  Lemma certificate_of_found calls x v : certificate_of_written calls x -> CertificateSeedValue_reads calls v -> exists r, (read_certificate_of resolved) v = Some r /\ certificate_of_is x r.
  Proof using Type.
    intros (H0 & H1 & H2 & H3 & H4 & H5 & H6 & H7 & H8 & H9 & H10) Q. destruct (dict_is _ _ Q) as [d ->]. destruct x as [p0 p1 p2 p3 p4 p5 p6 p7 p8 p9 p10].
    cbn [sc_flags sc_subject sc_policy sc_hash sc_algorithm sc_names sc_usage sc_issuer sc_oid sc_url sc_url_type] in *.
    entries H1 CertificateSeedValue_head CertificateSeedValue_doc (is_array_of is_str).
    entries H2 CertificateSeedValue_head CertificateSeedValue_doc is_str.
    entries H3 CertificateSeedValue_head CertificateSeedValue_doc is_str.
    entries H5 CertificateSeedValue_head CertificateSeedValue_doc (is_array_of (fun d => means (ODict d))).
    entries H6 CertificateSeedValue_head CertificateSeedValue_doc (is_array_of is_key_usage).
    entries H7 CertificateSeedValue_head CertificateSeedValue_doc (is_array_of is_str).
    entries H8 CertificateSeedValue_head CertificateSeedValue_doc (is_array_of is_str).
    entries H9 CertificateSeedValue_head CertificateSeedValue_doc is_str.
    destruct (related_found (lit "SubjectDN") (is_array_of (fun d => means (ODict d))) _ _ _ _ p5 Q H5 dns_found) as (r5 & E5 & X5).
    exists (mkCertificateOf p0 p1 p2 p3 p4 r5 p6 p7 p8 p9 p10).
    split; [|unfold certificate_of_is; repeat (split; [first [reflexivity|assumption]|]); first [reflexivity|assumption]].
    unfold read_certificate_of. cbn [object_dict bind].
    rewrite (part_same (lit "Ff") (is_flags CertificateSeedValueFlags_pos) _ (fun l x => x = positions_of CertificateSeedValueFlags_pos l) _ _ d p0 Q) with (2 := H0); [|intros c H; entries H CertificateSeedValue_head CertificateSeedValue_doc (is_flags CertificateSeedValueFlags_pos); exact H|exact (flags_found CertificateSeedValueFlags_pos)]. cbn [bind].
    rewrite (same_found (lit "Subject") (is_array_of is_str) _ _ _ p1 Q H1 strings_found). cbn [bind].
    rewrite (same_found (lit "SignaturePolicyOID") is_str _ _ _ p2 Q H2 str_found). cbn [bind].
    rewrite (same_found (lit "SignaturePolicyHashValue") is_str _ _ _ p3 Q H3 str_found). cbn [bind].
    rewrite (part_same (lit "SignaturePolicyHashAlgorithm") algorithm_reads _ (fun x y => x = inl y) _ _ d p4 Q) with (2 := H4); [|intros c H; entries H CertificateSeedValue_head CertificateSeedValue_doc algorithm_reads; exact H|exact algorithm_found]. cbn [bind].
    rewrite E5. cbn [bind].
    rewrite (same_found (lit "KeyUsage") (is_array_of is_key_usage) _ _ _ p6 Q H6 usages_found). cbn [bind].
    rewrite (same_found (lit "Issuer") (is_array_of is_str) _ _ _ p7 Q H7 strings_found). cbn [bind].
    rewrite (same_found (lit "OID") (is_array_of is_str) _ _ _ p8 Q H8 strings_found). cbn [bind].
    rewrite (same_found (lit "URL") is_str _ _ _ p9 Q H9 str_found). cbn [bind].
    rewrite (part_same (lit "URLType") is_CertificateUrlType _ (fun x y => x = y /\ url_apart x) _ _ d p10 Q) with (2 := H10); [|intros c H; entries H CertificateSeedValue_head CertificateSeedValue_doc is_CertificateUrlType; exact H|intros x y v [-> H]; exact (url_found y v H)]. cbn [bind].
    reflexivity.
  Qed.
  Lemma seed_of_found calls x v : seed_of_written calls x -> SignatureSeedValue_reads calls v -> exists r, (read_seed_of resolved) v = Some r /\ seed_of_is x r.
  Proof using Type.
    intros (H0 & H1 & H2 & H3 & H4 & H5 & H6 & H7 & H8 & H9 & H10 & H11) Q. destruct (dict_is _ _ Q) as [d ->]. destruct x as [p0 p1 p2 p3 p4 p5 p6 p7 p8 p9 p10 p11].
    cbn [ss_flags ss_filter ss_encodings ss_digests ss_version ss_certificate ss_reasons ss_mdp ss_stamp ss_attestations ss_revocation ss_locking] in *.
    entries H1 SignatureSeedValue_head SignatureSeedValue_doc is_name.
    entries H2 SignatureSeedValue_head SignatureSeedValue_doc is_names.
    entries H3 SignatureSeedValue_head SignatureSeedValue_doc (is_array_of is_SignatureDigestMethod).
    entries H4 SignatureSeedValue_head SignatureSeedValue_doc is_SeedValueParserVersion.
    entries H6 SignatureSeedValue_head SignatureSeedValue_doc (is_array_of is_text).
    entries H9 SignatureSeedValue_head SignatureSeedValue_doc (is_array_of is_text).
    entries H10 SignatureSeedValue_head SignatureSeedValue_doc is_bool.
    assert (Y5 : exists r, optional (lit "Cert") d (read_certificate_of resolved) = Some r /\ optionally certificate_of_is p5 r).
    { apply (part_related (lit "Cert") CertificateSeedValue_reads _ certificate_of_written _ _ _ d p5 Q) with (2 := H5); [intros c H; entries H SignatureSeedValue_head SignatureSeedValue_doc CertificateSeedValue_reads; exact H|exact certificate_of_found]. }
    destruct Y5 as (r5 & E5 & X5).
    exists (mkSeedOf p0 p1 p2 p3 p4 r5 p6 p7 p8 p9 p10 p11).
    split; [|unfold seed_of_is; repeat (split; [first [reflexivity|assumption]|]); first [reflexivity|assumption]].
    unfold read_seed_of. cbn [object_dict bind].
    rewrite (part_same (lit "Ff") (is_flags SignatureSeedValueFlags_pos) _ (fun l x => x = positions_of SignatureSeedValueFlags_pos l) _ _ d p0 Q) with (2 := H0); [|intros c H; entries H SignatureSeedValue_head SignatureSeedValue_doc (is_flags SignatureSeedValueFlags_pos); exact H|exact (flags_found SignatureSeedValueFlags_pos)]. cbn [bind].
    rewrite (same_found (lit "Filter") is_name _ _ _ p1 Q H1 name_found). cbn [bind].
    rewrite (same_found (lit "SubFilter") is_names _ _ _ p2 Q H2 names_found). cbn [bind].
    rewrite (same_found (lit "DigestMethod") (is_array_of is_SignatureDigestMethod) _ _ _ p3 Q H3 digests_found). cbn [bind].
    rewrite (same_found (lit "V") is_SeedValueParserVersion _ _ _ p4 Q H4 (numbered_found _)). cbn [bind].
    rewrite E5. cbn [bind].
    rewrite (same_found (lit "Reasons") (is_array_of is_text) _ _ _ p6 Q H6 texts_found). cbn [bind].
    rewrite (part_same (lit "MDP") SignatureModificationDetectionPrevention_reads _ mdp_of_written _ _ d p7 Q) with (2 := H7); [|intros c H; entries H SignatureSeedValue_head SignatureSeedValue_doc SignatureModificationDetectionPrevention_reads; exact H|exact mdp_of_found]. cbn [bind].
    rewrite (part_same (lit "TimeStamp") SignatureTimeStamp_reads _ stamp_of_written _ _ d p8 Q) with (2 := H8); [|intros c H; entries H SignatureSeedValue_head SignatureSeedValue_doc SignatureTimeStamp_reads; exact H|exact stamp_of_found]. cbn [bind].
    rewrite (same_found (lit "LegalAttestation") (is_array_of is_text) _ _ _ p9 Q H9 texts_found). cbn [bind].
    rewrite (same_found (lit "AddRevInfo") is_bool _ _ _ p10 Q H10 bool_found). cbn [bind].
    rewrite (part_same (lit "LockDocument") locking_reads _ (fun x y => x = inl y) _ _ d p11 Q) with (2 := H11); [|intros c H; entries H SignatureSeedValue_head SignatureSeedValue_doc locking_reads; exact H|exact locking_found]. cbn [bind].
    reflexivity.
  Qed.
  Lemma lock_at id x v : lock_object ops id x -> is_ref id v -> read_lock_of resolved v = Some x.
  Proof using R.
    intros (calls & I & W) ->. destruct (found resolved ops R _ _ I) as (i & E & w & -> & D). pose proof (lock_of_found calls x w W D) as X.
    destruct (dict_is _ _ D) as [d ->]. unfold read_lock_of in *. cbn [object_dict] in *. rewrite E. exact X.
  Qed.
  Lemma seed_at id x v : seed_object ops id x -> is_ref id v -> exists r, read_seed_of resolved v = Some r /\ seed_of_is x r.
  Proof using R.
    intros (calls & I & W) ->. destruct (found resolved ops R _ _ I) as (i & E & w & -> & D). destruct (seed_of_found calls x w W D) as (r & X & Y).
    exists r. split; [|exact Y]. destruct (dict_is _ _ D) as [d ->]. unfold read_seed_of in *. cbn [object_dict] in *. rewrite E. exact X.
  Qed.
  Lemma field_parts_found calls x v : field_parts_written ops calls x -> Field_reads calls v -> exists r, (read_field_parts resolved) v = Some r /\ field_parts_is x r.
  Proof using R.
    intros (H0 & H1 & H2 & H3 & H4 & H5 & H6 & H7 & H8 & H9) Q. destruct (dict_is _ _ Q) as [d ->]. destruct x as [p0 p1 p2 p3 p4 p5 p6 p7 p8 p9].
    cbn [fq_alternate fq_mapping fq_parent fq_options fq_style fq_rich fq_top fq_indices fq_lock fq_seed] in *.
    PropForm.field_call H0 is_textlike.
    PropForm.field_call H1 is_text.
    PropForm.field_call H2 is_ref.
    PropForm.field_call H4 is_text.
    PropForm.field_call H5 is_textlike.
    PropForm.field_call H6 is_int.
    PropForm.field_call H7 (is_array_of is_int).
    assert (Y9 : exists r, optional (lit "SV") d (read_seed_of resolved) = Some r /\ optionally seed_of_is p9 r).
    { apply (part_related (lit "SV") is_ref _ (seed_object ops) _ _ _ d p9 Q) with (2 := H9); [intros c H; PropForm.field_call H is_ref; exact H|exact seed_at]. }
    destruct Y9 as (r9 & E9 & X9).
    exists (mkFieldParts p0 p1 p2 p3 p4 p5 p6 p7 p8 r9).
    split; [|unfold field_parts_is; repeat (split; [first [reflexivity|assumption]|]); first [reflexivity|assumption]].
    unfold read_field_parts. cbn [object_dict bind].
    rewrite (text_option_found _ _ (lit "TU") p0 Q H0). cbn [bind].
    rewrite (same_found (lit "TM") is_text _ _ _ p1 Q H1 text_found). cbn [bind].
    rewrite (same_found (lit "Parent") is_ref _ _ _ p2 Q H2 id_found). cbn [bind].
    rewrite (part_same (lit "Opt") options_read _ options_written _ _ d p3 Q) with (2 := H3); [|intros c H; PropForm.field_call H options_read; exact H|exact options_found]. cbn [bind].
    rewrite (same_found (lit "DS") is_text _ _ _ p4 Q H4 text_found). cbn [bind].
    rewrite (text_option_found _ _ (lit "RV") p5 Q H5). cbn [bind].
    rewrite (same_found (lit "TI") is_int _ _ _ p6 Q H6 whole_found). cbn [bind].
    rewrite (same_found (lit "I") (is_array_of is_int) _ _ _ p7 Q H7 wholes_found). cbn [bind].
    rewrite (part_same (lit "Lock") is_ref _ (lock_object ops) _ _ d p8 Q) with (2 := H8); [|intros c H; PropForm.field_call H is_ref; exact H|exact lock_at]. cbn [bind].
    rewrite E9. cbn [bind].
    reflexivity.
  Qed.

  Fixpoint part_depth (p : part) : nat :=
    match p with PartNode _ _ _ _ _ kids => S (fold_right Nat.max 0%nat (map part_depth kids)) | PartLeaf _ _ _ _ _ _ => 1%nat end.
  (** What is read of a field itself. *)
  Lemma part_self id name default most own kids : named_part ops id name default most own kids -> exists d r,
    resolved id = Some (IObj id 0 (VDict d)) /\ SpecForm.has_name d = true /\ required (lit "T") d read_textstring = Some name /\
    SpecForm.present (lit "DV") d SpecForm.read_value = Some (bind default SpecForm.asked_value) /\ optional (lit "MaxLen") d read_int = Some most /\
    read_field_parts resolved (VRef id 0) = Some r /\ field_parts_is own r /\ lookup (lit "Kids") d = option_map (fun l => VArr (map (fun r => VRef r 0) l)) kids.
  Proof using R.
    intros (calls & I & N & (c & V1 & V2) & M & W & K). destruct (found resolved ops R _ _ I) as (i & E & w & -> & D).
    destruct (field_parts_found calls own w W D) as (r & X & Y). destruct (dict_is _ _ D) as [d ->]. exists d, r. pose proof (default_entry _ _ _ V1 V2) as V.
    PropForm.field_call N is_textlike. PropForm.field_call M is_int. PropForm.field_call K is_refs. cbn [option_map entry_or_none] in N.
    destruct (dict_lookup (lit "T") _ _ _ D N) as (t & L & T).
    split; [exact E|]. split; [unfold SpecForm.has_name; rewrite L; reflexivity|].
    split; [unfold required; rewrite L; cbn [bind]; exact (text_found _ _ T)|]. split; [exact (PropForm.value_found _ _ _ _ D V)|].
    split; [exact (same_found (lit "MaxLen") is_int _ _ _ most D M whole_found)|].
    split; [unfold read_field_parts in *; cbn [object_dict] in *; rewrite E; exact X|]. split; [exact Y|].
    destruct kids as [l|]; cbn [option_map entry_or_none] in *; [|exact (dict_lookup_none _ _ _ D K)].
    destruct (dict_lookup (lit "Kids") _ _ _ D K) as (v & Lk & vs & -> & Q). rewrite Lk. apply refs_found in Q. subst vs. reflexivity.
  Qed.
  Lemma part_named p : part_written ops p -> exists d, resolved (part_id p) = Some (IObj (part_id p) 0 (VDict d)) /\ SpecForm.has_name d = true.
  Proof using R.
    destruct p as [id name dv ml own kids|id name dv ml own w]; cbn [part_written part_id].
    - intros (_ & W & _). destruct (part_self _ _ _ _ _ _ W) as (d & r & E & N & _). exists d. split; assumption.
    - intros (W & _). destruct (part_self _ _ _ _ _ _ W) as (d & r & E & N & _). exists d. split; assumption.
  Qed.
  Lemma parts_named kids : kids <> [] -> (fix all l := match l with [] => True | p :: l => part_written ops p /\ all l end) kids -> exists ds,
    SpecNav.all_of (map (object_dict resolved) (map (fun r => VRef r 0) (map part_id kids))) = Some ds /\ existsb SpecForm.has_name ds = true.
  Proof using R.
    intros NE W.
    assert (A : exists ds, SpecNav.all_of (map (object_dict resolved) (map (fun r => VRef r 0) (map part_id kids))) = Some ds /\ (kids <> [] -> existsb SpecForm.has_name ds = true)).
    { clear NE. induction kids as [|p kids IH]; [exists []; split; [reflexivity|congruence]|]. destruct W as [W1 W2]. destruct (IH W2) as (ds & E & N).
      destruct (part_named p W1) as (d & E' & N'). exists (d :: ds). cbn [map SpecNav.all_of object_dict]. rewrite E', E. split; [reflexivity|].
      intros _. cbn [existsb]. rewrite N'. reflexivity. }
    destruct A as (ds & E & N). exists ds. split; [exact E|exact (N NE)].
  Qed.
  Lemma part_found : forall p names default most, part_written ops p -> exists rs, Forall2 part_is (asked_parts names default most p) rs /\
    forall n, (part_depth p <= n)%nat -> read_part resolved n names default most (VRef (part_id p) 0) = Some rs.
  Proof using R.
    fix IH 1. intros [id name dv ml own kids|id name dv ml own w] names default most W; cbn [part_depth part_id asked_parts part_written] in *.
    - destruct W as (NE & W & K). destruct (part_self _ _ _ _ _ _ W) as (d & r & E & _ & T & V & M & X & Y & Kd). cbn [option_map] in Kd.
      destruct (parts_named kids NE K) as (ds & Ed & N). set (names' := names ++ [name]). set (default' := SpecForm.or_else (bind dv SpecForm.asked_value) default).
      set (most' := SpecForm.or_else ml most). clear W Ed.
      assert (Z : exists rs, Forall2 part_is (flat_map (asked_parts names' default' most') kids) rs /\ forall n, (fold_right Nat.max 0%nat (map part_depth kids) <= n)%nat ->
        concat_all (map (read_part resolved n names' default' most') (map (fun r => VRef r 0) (map part_id kids))) = Some rs).
      { clearbody names' default' most'. clear - IH K. induction kids as [|p kids IHk]; [exists []; split; [constructor|reflexivity]|]. destruct K as [K1 K2].
        destruct (IH p names' default' most' K1) as (r1 & A1 & B1). destruct (IHk K2) as (r2 & A2 & B2). exists (r1 ++ r2). cbn [map fold_right flat_map].
        split; [apply Forall2_app; assumption|]. intros n L. cbn [map concat_all].
        rewrite B1 by (etransitivity; [apply Nat.le_max_l|exact L]). rewrite B2 by (etransitivity; [apply Nat.le_max_r|exact L]). reflexivity. }
      destruct Z as (rs & A & B). destruct (parts_named kids NE K) as (ds' & Ed & N').
      exists (mkPartRead names' default' most' r :: rs). split; [constructor; [split; [reflexivity|split; [reflexivity|split; [reflexivity|exact Y]]]|exact A]|].
      intros [|n] L; [inversion L|]. apply le_S_n in L. cbn [read_part]. cbn [object_dict]. rewrite E. cbn [bind]. rewrite T. cbn [bind]. rewrite V. cbn [bind]. rewrite M. cbn [bind]. rewrite X. cbn [bind].
      rewrite Kd. rewrite Ed. cbn [bind]. rewrite N'. fold names' default' most'. rewrite (B n L). reflexivity.
    - destruct W as (W & Wd). destruct (part_self _ _ _ _ _ _ W) as (d & r & E & _ & T & V & M & X & Y & Kd).
      eexists. split; [constructor; [|constructor]; [instantiate (1 := mkPartRead _ _ _ r); split; [reflexivity|split; [reflexivity|split; [reflexivity|exact Y]]]]|].
      intros [|n] L; [inversion L|]. cbn [read_part]. cbn [object_dict]. rewrite E. cbn [bind]. rewrite T. cbn [bind]. rewrite V. cbn [bind]. rewrite M. cbn [bind]. rewrite X. cbn [bind].
      rewrite Kd. destruct w as [ids|]; cbn [option_map]; [|reflexivity].
      destruct (PropForm.widgets_found resolved ops R ids Wd) as (ds & Ed & N). rewrite Ed. cbn [bind]. rewrite N. reflexivity.
  Qed.
  Lemma ids_named l ws : Forall2 (fun e w => fst e = fst w /\ means (snd e) (snd w)) (as_references l) ws ->
    SpecNav.all_of (map (fun e : bytes * val => option_map (pair (fst e)) (read_id (snd e))) ws) = Some l.
  Proof using Type.
    revert ws. induction l as [|[n i] l IH]; intros ws F; inversion F as [|? [k v] ? ws' [F1 F2] F']; subst; [reflexivity|]. cbn [fst snd] in *. subst k.
    inversion F2; subst. cbn [map SpecNav.all_of fst snd read_id option_map]. rewrite (IH ws' F'). reflexivity.
  Qed.
  Lemma fonts_part calls l v : fonts_given calls (Some l) -> Resources_reads calls v ->
    bind (object_dict resolved v) (fun r => required (lit "Font") r (read_named_ids resolved)) = Some l.
  Proof using Type.
    intros G V. apply fonts_entry in G. destruct (dict_is _ _ V) as [d ->]. cbn [object_dict bind option_map entry_or_none] in *.
    destruct (dict_lookup (lit "Font") _ _ _ V G) as (w & L & M). unfold required. rewrite L. cbn [bind].
    inversion M as [| | | | | | | | | | | |? ws F]; subst. unfold read_named_ids. cbn [object_dict bind]. exact (ids_named l ws F).
  Qed.
End Walk.

(** A reader that starts from the trailer finds the settings of the form and its fields in order, each before those below it, with all that was given for them. *)
Theorem C89_fields : forall decode ops cat file calls settings parts,
  finished_document decode ops cat file -> In (DocCatalog cat calls) ops -> parts_written ops calls settings parts ->
  exists rs depth, Forall2 part_is (flat_map (asked_parts [] None None) parts) rs /\ forall n, (depth <= n)%nat -> read_parts decode n file = Some (settings, rs).
Proof.
  intros decode ops cat file calls settings parts D I (fcalls & W1 & W2 & W3 & W4 & W5 & W6).
  entries W1 Catalog_head Catalog_doc Form_reads. entries W3 Form_head Form_doc is_refs. entries W5 Form_head Form_doc is_refs.
  destruct (document_facts _ _ _ _ D) as [X _]. destruct (catalog_found _ _ _ _ _ D I) as (c & C1 & C2).
  assert (Z : exists rs depth, Forall2 part_is (flat_map (asked_parts [] None None) parts) rs /\ forall n, (depth <= n)%nat ->
    concat_all (map (read_part (resolve decode file) n [] None None) (map (fun r => VRef r 0) (map part_id parts))) = Some rs).
  { clear - W6 X. induction W6 as [|p parts H W6 (rs & m & A & B)]; [exists [], 0%nat; split; [constructor|reflexivity]|].
    destruct (part_found _ ops X p [] None None H) as (r & A1 & B1). exists (r ++ rs), (Nat.max (part_depth p) m). cbn [flat_map]. split; [apply Forall2_app; assumption|].
    intros n L. cbn [map concat_all]. rewrite B1 by (etransitivity; [apply Nat.le_max_l|exact L]). rewrite B by (etransitivity; [apply Nat.le_max_r|exact L]). reflexivity. }
  destruct Z as (rs & m & A & B). exists rs, m. split; [exact A|]. intros n Hn. unfold read_parts. rewrite C1. cbn [bind].
  unfold required at 1. destruct (dict_lookup _ _ _ _ C2 W1) as (v & L & Q). rewrite L. cbn [bind]. destruct (dict_is _ _ Q) as [form ->]. cbn [object_dict bind].
  destruct settings as [flags order fonts]. cbn [fs_flags fs_order fs_fonts] in *.
  rewrite (part_same (lit "SigFlags") (is_flags SigFlags_pos) _ (fun l x => x = positions_of SigFlags_pos l) _ _ form flags Q) with (2 := W2);
    [|intros k H; entries H Form_head Form_doc (is_flags SigFlags_pos); exact H|exact (flags_found SigFlags_pos)]. cbn [bind].
  rewrite (same_found (lit "CO") is_refs _ _ _ order Q W3 ids_found). cbn [bind].
  rewrite (part_same (lit "DR") Resources_reads _ (fun c x => fonts_given c (Some x)) _ _ form fonts Q) with (2 := W4);
    [|intros k H; entries H Form_head Form_doc Resources_reads; exact H|exact (fonts_part (resolve decode file))]. cbn [bind].
  destruct (dict_lookup (lit "Fields") _ _ _ Q W5) as (v & Lf & vs & -> & Qf). unfold required. rewrite Lf. cbn [bind]. apply refs_found in Qf. subst vs. rewrite (B n Hn). reflexivity.
Qed.

(** ** A document that meets the hypotheses *)
Definition field_lock_calls : SignatureFieldLock_calls := [Typed (SignatureFieldLock_action SignatureLockAction_Include); Typed (SignatureFieldLock_fields [[97]; [98; 960]]);
  Typed (SignatureFieldLock_access_permissions AccessPermissions_Annotations)].
Definition usage_case : CertificateKeyUsage := mkKeyUsage (Some true) None None (Some false) None None None None None.
Definition seed_calls : SignatureSeedValue_calls := [
  Typed (SignatureSeedValue_constraint_flags [SignatureSeedValueFlags_Version; SignatureSeedValueFlags_Filter]); Typed (SignatureSeedValue_filter (lit "Adobe.PPKLite"));
  Typed (SignatureSeedValue_sub_filter [lit "A"; lit "B"]); Typed (SignatureSeedValue_digest_method [SignatureDigestMethod_SHA256]);
  Typed (SignatureSeedValue_version SeedValueParserVersion_Pdf17);
  Typed (SignatureSeedValue_certificate [Typed (CertificateSeedValue_constraint_flags [CertificateSeedValueFlags_Url]); Typed (CertificateSeedValue_subject [lit "S"]);
    Typed (CertificateSeedValue_signature_policy_hash_algorithm (lit "SHA256")); Typed (CertificateSeedValue_subject_dn [[(lit "cn", OPrim (PStr (lit "Me")))]]);
    Typed (CertificateSeedValue_key_usage [usage_case]); Typed (CertificateSeedValue_url (lit "u:")); Typed (CertificateSeedValue_url_type (CertificateUrlType_Custom (lit "Zz")))]);
  Typed (SignatureSeedValue_reasons [[82]]);
  Typed (SignatureSeedValue_modification_detection_prevention [Typed (SignatureModificationDetectionPrevention_signature_type (MdpSignatureType_CertificationSignature AccessPermissions_Annotations))]);
  Typed (SignatureSeedValue_timestamp [Typed (SignatureTimeStamp_url (lit "t:")); Typed (SignatureTimeStamp_required true)]);
  Typed (SignatureSeedValue_add_rev_info true); Typed (SignatureSeedValue_lock_document LockingIntent_Auto)].
Definition top_calls : Field_calls := [Typed (Field_partial_name [97]); Typed (Field_children [11; 12]); Typed (Field_text_max_len 9); Typed (Field_text_default_value (TextPlain [68]));
  Typed (Field_alternate_name (TextPlain [65])); Typed (Field_mapping_name [66])].
Definition choice_calls : Field_calls := [Typed (Field_partial_name [99]); Typed (Field_parent 10); Typed (Field_choice_default_value None);
  Typed (Field_choice_options [TypedItem (ChoiceOptions_option (TextPlain [49])); TypedItem (ChoiceOptions_export (TextPlain [50]) [51]); TypedItem (ChoiceOptions_exports [(TextPlain [52], [53])])]);
  Typed (Field_choice_top_index 1); Typed (Field_choice_indices [0; 2]); Typed (Field_children [13])].
Definition sign_calls : Field_calls := [Typed (Field_partial_name [115]); Typed (Field_signature_field_lock 14); Typed (Field_signature_seed_value 15); Typed (Field_text_max_len 3);
  Typed (Field_vartext_default_style [100]); Typed (Field_vartext_rich_value (TextPlain [114])); Typed (Field_into_annotation [Typed (Annotation_parent 10)])].
Definition radio_calls : Field_calls := [Typed (Field_partial_name [114]); Typed (Field_button_options [[120]; [121]]); Typed (Field_radio_default_value (lit "one"))].
Definition fields_catalog : Catalog_calls := [Typed (Catalog_pages 2);
  Typed (Catalog_form [Typed (Form_fields [10; 20]); Typed (Form_sig_flags [SigFlags_AppendOnly]); Typed (Form_calculation_order [11; 12]);
    Typed (Form_default_resources [Typed (Resources_fonts [(lit "F", OPrim (PRef 30))])])])].
Definition fields_sample : list doc_op := [
  DocTyped 10 (Ck_form_field top_calls); DocTyped 11 (Ck_form_field choice_calls); DocTyped 12 (Ck_form_field sign_calls);
  DocTyped 13 (Ck_annotation [Typed (Annotation_subtype AnnotationType_Widget)]);
  DocTyped 14 (Ck_signature_field_lock field_lock_calls); DocTyped 15 (Ck_signature_seed_value seed_calls); DocTyped 20 (Ck_form_field radio_calls);
  DocCatalog 1 fields_catalog].
Definition fields_settings : form_settings := mkSettings (Some [2]) (Some [11; 12]) (Some [(lit "F", 30)]).
Definition seed_asked : seed_of obj := mkSeedOf (Some [1; 3]) (Some (lit "Adobe.PPKLite")) (Some [lit "A"; lit "B"]) (Some [SignatureDigestMethod_SHA256]) (Some SeedValueParserVersion_Pdf17)
  (Some (mkCertificateOf (Some [7]) (Some [lit "S"]) None None (Some (lit "SHA256")) (Some [[(lit "cn", OPrim (PStr (lit "Me")))]]) (Some [usage_case]) None None (Some (lit "u:")) (Some (CertificateUrlType_Custom (lit "Zz")))))
  (Some [[82]]) (Some (mkMdpOf (Some (MdpSignatureType_CertificationSignature AccessPermissions_Annotations)))) (Some (mkStampOf (Some (lit "t:")) (Some true))) None (Some true) (Some LockingIntent_Auto).
Definition lock_asked : lock_of := mkLockOf (Some SignatureLockAction_Include) (Some [[97]; [98; 960]]) (Some AccessPermissions_Annotations).
Definition choice_parts : field_parts obj := mkFieldParts None None (Some 10) (Some [([49], None); ([50], Some [51]); ([52], Some [53])]) None None (Some 1) (Some [0; 2]) None None.
Definition fields_asked : list part := [
  PartNode 10 [97] (Some (SpecForm.AskText [68])) (Some 9) (mkFieldParts (Some [65]) (Some [66]) None None None None None None None None) [
    PartLeaf 11 [99] (Some SpecForm.AskNull) None choice_parts (Some [13]);
    PartLeaf 12 [115] None (Some 3) (mkFieldParts None None (Some 10) None (Some [100]) (Some [114]) None None (Some lock_asked) (Some seed_asked)) None];
  PartLeaf 20 [114] (Some (SpecForm.AskName (lit "one"))) None (mkFieldParts None None None (Some [([120], None); ([121], None)]) None None None None None None) None].
Ltac there := cbn [fields_sample In]; tauto.
Example C89_case : parts_written fields_sample fields_catalog fields_settings fields_asked.
Proof.
  eexists. split; [reflexivity|]. split; [eexists; split; reflexivity|]. split; [reflexivity|]. split; [eexists; split; reflexivity|]. split; [reflexivity|].
  apply Forall_cons; [|apply Forall_cons; [|apply Forall_nil]].
  - split; [discriminate|]. split; [|split; [|split; [|exact Logic.I]]].
    + exists top_calls. split; [there|]. split; [reflexivity|]. split; [exists (Some (Field_text_default_value (TextPlain [68]))); split; reflexivity|]. repeat split.
    + split; [|apply Forall_cons; [|apply Forall_nil]; left; eexists; split; [there|reflexivity]].
      exists choice_calls. split; [there|]. split; [reflexivity|]. split; [exists (Some (Field_choice_default_value None)); split; reflexivity|]. split; [reflexivity|]. split; [|reflexivity].
      do 3 (split; [reflexivity|]). split; [|repeat split]. eexists (inr _). split; [reflexivity|]. eexists [_; _; _]. split; reflexivity.
    + split; [|exact Logic.I]. exists sign_calls. split; [there|]. split; [reflexivity|]. split; [exists None; split; reflexivity|]. split; [reflexivity|]. split; [|reflexivity].
      do 8 (split; [reflexivity|]). split; [exists 14; split; [reflexivity|exists field_lock_calls; split; [there|repeat split]]|].
      exists 15. split; [reflexivity|]. exists seed_calls. split; [there|].
      split; [eexists; split; reflexivity|]. do 4 (split; [reflexivity|]). split.
      * eexists. split; [reflexivity|]. split; [eexists; split; reflexivity|]. do 3 (split; [reflexivity|]). split; [exists (inl (lit "SHA256")); split; reflexivity|].
        do 5 (split; [reflexivity|]). eexists. split; [reflexivity|]. split; reflexivity.
      * split; [reflexivity|]. split; [eexists; split; reflexivity|]. split; [eexists; split; [reflexivity|repeat split]|]. split; [reflexivity|]. split; [reflexivity|].
        exists (inl LockingIntent_Auto). split; reflexivity.
  - split; [|exact Logic.I]. exists radio_calls. split; [there|]. split; [reflexivity|]. split; [exists (Some (Field_radio_default_value (lit "one"))); split; reflexivity|].
    split; [reflexivity|]. split; [|reflexivity]. do 3 (split; [reflexivity|]). split; [|repeat split]. exists (inl [[120]; [121]]). split; reflexivity.
Qed.
Definition names_and_defaults (r : option (form_settings * list part_read)) : option (form_settings * list (list (list Z) * option SpecForm.field_value * option Z)) :=
  option_map (fun x => (fst x, map (fun p => (pr_name p, pr_default p, pr_max p)) (snd x))) r.
Definition fields_result := Some (fields_settings, [
  ([[97]], Some (SpecForm.ValueText [68]), Some 9); ([[97]; [99]], Some (SpecForm.ValueText [68]), Some 9); ([[97]; [115]], Some (SpecForm.ValueText [68]), Some 3);
  ([[114]], Some (SpecForm.ValueName (lit "one")), None)]).
Example C89_file : exists file, finished_document no_filter fields_sample 1 file /\ names_and_defaults (read_parts no_filter 3 file) = fields_result.
Proof.
  assert (X : match doc_run fields_sample (pdf_with_settings true) with
              | Some p => match finish p with Some file => Some (blen file <=? 10 ^ 10, names_and_defaults (read_parts no_filter 3 file)) | None => None end
              | None => None end = Some (true, fields_result)) by (vm_compute; reflexivity).
  destruct (doc_run fields_sample (pdf_with_settings true)) as [p|] eqn:R; [|discriminate].
  destruct (finish p) as [file|] eqn:F; [|discriminate]. exists file. apply some_inj in X.
  split; [apply (finished_table _ _ _ _ true p); [|exact R|exact F| |apply Z.leb_le; exact (f_equal fst X)|reflexivity]|exact (f_equal snd X)].
  - repeat (apply Forall_cons; [cbn [doc_op_ok op_typed]; repeat split|]); apply Forall_nil.
  - unfold ids_below; repeat constructor.
Qed.

Print Assumptions C89_fields.
