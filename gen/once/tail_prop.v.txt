(** ** Maps whose keys are arguments *)
Section Named.
  Context {C : Type} (f : C -> list (bytes * obj)) (sets : C -> list bytes) (N : forall c, map fst (f c) = sets c).
  Lemma named_keys l : map fst (flat_map (raw_entries f) (map Typed l)) = flat_map sets l.
  Proof using N. induction l as [|c l IH]; [reflexivity|]. cbn [map flat_map raw_entries]. rewrite map_app, N, IH. reflexivity. Qed.
  Lemma named_all cs : Permutation (map fst (flat_map (raw_entries f) cs)) (flat_map sets (typed_calls cs) ++ raw_keys cs).
  Proof using N.
    induction cs as [|[c|k o] cs IH]; [constructor| |]; unfold typed_calls, raw_keys in *; cbn [flat_map app raw_entries map fst].
    - rewrite map_app, N, <- app_assoc. apply Permutation_app_head, IH.
    - rewrite IH. apply Permutation_middle.
  Qed.
  Lemma named_once : never_twice every sets (fun cs => Some (dict_writer [] f cs)).
  Proof using N.
    split.
    - intros cs typed o _ Nd Ty Nr D E. apply some_inj in Ty. apply some_inj in E. subst typed o. unfold dict_writer in *. cbn [app keys] in *.
      rewrite named_keys in D. eexists. split; [reflexivity|]. eapply Permutation_NoDup; [apply Permutation_sym, named_all|].
      apply nodup_join; [exact Nd|exact Nr|]. intros k I J. exact (D k J I).
    - intros cs es _ E Nd. apply some_inj in E. unfold dict_writer in E. injection E as <-. cbn [app] in Nd. rewrite named_keys in Nd. exact Nd.
  Qed.
  Lemma named_typed_once : never_twice_typed sets (fun cs => Some (dict_writer [] f (map Typed cs))).
  Proof using N.
    split.
    - intros cs o Nd E. apply some_inj in E. subst o. unfold dict_writer. cbn [app]. eexists. split; [reflexivity|]. rewrite named_keys. exact Nd.
    - intros cs es E Nd. apply some_inj in E. unfold dict_writer in E. injection E as <-. cbn [app] in Nd. rewrite named_keys in Nd. exact Nd.
  Qed.
End Named.

Theorem C108_RoleMap : never_twice_typed RoleMap_sets (fun cs => Some (RoleMap_obj cs)).
Proof. refine (named_typed_once RoleMap_entries RoleMap_sets _). intros []; reflexivity. Qed.

Theorem C108_ClassMap : never_twice every ClassMap_sets (fun cs => Some (ClassMap_obj cs)).
Proof. refine (named_once ClassMap_entries ClassMap_sets _). intros []; reflexivity. Qed.

Theorem C108_NamespaceRoleMap : never_twice every NamespaceRoleMap_sets (fun cs => Some (NamespaceRoleMap_obj cs)).
Proof. refine (named_once NamespaceRoleMap_entries NamespaceRoleMap_sets _). intros []; reflexivity. Qed.

(** ** What is read

    A reader that reads the values written sees the keys of the dictionary, in their order: it meets no key twice, either. *)
Theorem C108_read : forall es v, SpecMeans.means (ODict es) v -> NoDup (map fst es) ->
  exists vs, v = SpecObj.VDict vs /\ NoDup (map fst vs).
Proof.
  intros es v M N. inversion M as [| | | | | | | | | | | |l vs F]; subst. exists vs. split; [reflexivity|].
  replace (map fst vs) with (map fst es); [exact N|]. clear M N. induction F as [|e e' l l' [E _] _ IH]; [reflexivity|]. cbn [map]. rewrite E, IH. reflexivity.
Qed.

Lemma collide l : nodupb l = false -> ~ NoDup l.
Proof.
  induction l as [|k l IH]; intros E N; [discriminate|]. apply NoDup_cons_iff in N as [X N]. cbn [nodupb] in E. apply andb_false_iff in E as [E|E]; [|exact (IH E N)].
  apply X, memb_in. destruct (memb k l); [reflexivity|discriminate].
Qed.

(** ** Where the claim fails

    With the names of the methods instead of the names of [SpecOnce], the claim is false: two methods that set different things write one key.
    (So do [annot_page_close] and [annot_page_visible], [page_close] and [form_calculate].) *)
Theorem C108_SignatureSeedValue_refuted : forall intent appearance,
  exists es, SignatureSeedValue_obj [Typed (SignatureSeedValue_lock_document intent); Typed (SignatureSeedValue_appearance_filter appearance)] = ODict es /\
  ~ NoDup (map fst es).
Proof.
  intros i a. eexists. split; [reflexivity|]. apply collide. reflexivity.
Qed.
Theorem C108_CertificateSeedValue_refuted : forall algorithm types,
  exists es, CertificateSeedValue_obj [Typed (CertificateSeedValue_signature_policy_hash_algorithm algorithm);
    Typed (CertificateSeedValue_signature_policy_commitment_type types)] = ODict es /\
  ~ NoDup (map fst es).
Proof.
  intros i a. eexists. split; [reflexivity|]. apply collide. reflexivity.
Qed.
Theorem C108_AdditionalActions_refuted : forall a b,
  (exists es, AdditionalActions_obj [Typed (AdditionalActions_annot_page_close a); Typed (AdditionalActions_annot_page_visible b)] = ODict es /\ ~ NoDup (map fst es)) /\
  (exists es, AdditionalActions_obj [Typed (AdditionalActions_page_close a); Typed (AdditionalActions_form_calculate b)] = ODict es /\ ~ NoDup (map fst es)).
Proof.
  intros a b. split; (eexists; split; [reflexivity|]; apply collide; reflexivity).
Qed.
(** The same with untyped entries: the hypothesis on their keys is needed. *)
Theorem C108_raw_refuted : forall parent o,
  exists es, Page_obj [Typed (Page_parent parent); Raw (lit "Parent") o] = Some (ODict es) /\ ~ NoDup (map fst es).
Proof.
  intros p o. eexists. split; [reflexivity|]. apply collide. reflexivity.
Qed.

(** ** A case *)
Definition page_calls : list (or_raw Page_call) :=
  [Typed (Page_parent 2); Raw (lit "Custom") (OPrim (PInt 7)); Typed (Page_contents_array [5; 6]); Typed (Page_rotate 90)].
Example C108_case :
  forallb every (typed_calls page_calls) = true /\ NoDup (flat_map Page_sets (typed_calls page_calls)) /\ NoDup (raw_keys page_calls) /\
  exists typed es, Page_obj (map Typed (typed_calls page_calls)) = Some typed /\ (forall k, In k (raw_keys page_calls) -> ~ In k (keys typed)) /\
  Page_obj page_calls = Some (ODict es) /\ map fst es = [lit "Type"; lit "Parent"; lit "Custom"; lit "Contents"; lit "Rotate"] /\ NoDup (map fst es).
Proof.
  split; [reflexivity|]. split; [apply nodupb_ok; reflexivity|]. split; [apply nodupb_ok; reflexivity|].
  eexists. eexists. split; [reflexivity|]. split.
  - intros k [<-|[]] I. apply memb_in in I. discriminate I.
  - split; [reflexivity|]. split; [reflexivity|]. apply nodupb_ok. reflexivity.
Qed.
(** ... and one with a stream: an image with a filter and an entry of the caller. *)
Example C108_stream_case : exists es,
  ImageXObject_dict [STyped (ImageXObject_width 8); SStream (Stream_filter FlateDecode); SRaw (lit "Custom") (OPrim PNull); STyped (ImageXObject_height 8)] = Some es /\
  NoDup (lit "Length" :: map fst es).
Proof. eexists. split; [reflexivity|]. apply nodupb_ok. reflexivity. Qed.

Print Assumptions C108_MediaPermissions.
Print Assumptions C108_MediaPlayParams.
Print Assumptions C108_MediaClip.
Print Assumptions C108_Rendition.
Print Assumptions C108_Action.
Print Assumptions C108_AdditionalActions.
Print Assumptions C108_Appearance.
Print Assumptions C108_IconFit.
Print Assumptions C108_AppearanceCharacteristics.
Print Assumptions C108_BorderStyle.
Print Assumptions C108_Annotation.
Print Assumptions C108_UserProperty.
Print Assumptions C108_LayoutAttributes.
Print Assumptions C108_ListAttributes.
Print Assumptions C108_FieldAttributes.
Print Assumptions C108_TableAttributes.
Print Assumptions C108_ArtifactAttributes.
Print Assumptions C108_FENoteAttributes.
Print Assumptions C108_MarkedRef.
Print Assumptions C108_ObjectRef.
Print Assumptions C108_StructElement.
Print Assumptions C108_Namespace.
Print Assumptions C108_StructTreeRoot.
Print Assumptions C108_MarkInfo.
Print Assumptions C108_DeveloperExtension.
Print Assumptions C108_ViewerPreferences.
Print Assumptions C108_PageLabel.
Print Assumptions C108_DocumentInfo.
Print Assumptions C108_Transition.
Print Assumptions C108_Names.
Print Assumptions C108_Pages.
Print Assumptions C108_Page.
Print Assumptions C108_Outline.
Print Assumptions C108_OutlineItem.
Print Assumptions C108_Catalog.
Print Assumptions C108_DecodeParms.
Print Assumptions C108_FileSpec.
Print Assumptions C108_EmbeddingParams.
Print Assumptions C108_EmbeddedFile.
Print Assumptions C108_Encoding.
Print Assumptions C108_Type1Font.
Print Assumptions C108_Type3Font.
Print Assumptions C108_Type0Font.
Print Assumptions C108_CidFont.
Print Assumptions C108_Cmap.
Print Assumptions C108_SignatureFieldLock.
Print Assumptions C108_SignatureModificationDetectionPrevention.
Print Assumptions C108_SignatureTimeStamp.
Print Assumptions C108_CertificateSeedValue.
Print Assumptions C108_SignatureSeedValue.
Print Assumptions C108_Field.
Print Assumptions C108_Form.
Print Assumptions C108_Artifact.
Print Assumptions C108_PropertyList.
Print Assumptions C108_Resources.
Print Assumptions C108_SoftMask.
Print Assumptions C108_ExtGraphicsState.
Print Assumptions C108_TilingPattern.
Print Assumptions C108_FunctionShading.
Print Assumptions C108_ShadingPattern.
Print Assumptions C108_StreamShading.
Print Assumptions C108_SeparationInfo.
Print Assumptions C108_OutputIntent.
Print Assumptions C108_Group.
Print Assumptions C108_Reference.
Print Assumptions C108_ImageXObject.
Print Assumptions C108_FormXObject.
Print Assumptions C108_SampledFunction.
Print Assumptions C108_ExponentialFunction.
Print Assumptions C108_StitchingFunction.
Print Assumptions C108_PostScriptFunction.
Print Assumptions C108_read.
Print Assumptions C108_SignatureSeedValue_refuted.
Print Assumptions C108_CertificateSeedValue_refuted.
Print Assumptions C108_AdditionalActions_refuted.
Print Assumptions C108_raw_refuted.
Print Assumptions C108_RoleMap.
Print Assumptions C108_ClassMap.
Print Assumptions C108_NamespaceRoleMap.
