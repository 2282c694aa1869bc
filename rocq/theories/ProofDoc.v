(** Proofs about documents built with the typed constructors.  Generated by gen/gen_doc.py. *)

From Coq Require Import ZArith List Bool.
From Verif Require ModelContent ModelCmap.
From Verif Require Import Bytes ModelFloat ModelBuf ModelObject ModelChunk ModelColor ModelSmall ModelPdf ModelTw ModelEnums ModelRoles ModelTwArgs
  ModelTwFiles ModelTwGraphics ModelTwAnnot ModelTwForms ModelTwAttr ModelTwXObj ModelTwFonts ModelTwDoc ModelFontDesc ModelDoc
  SpecLex SpecObj SpecText SpecMeans SpecRenum SpecChunk SpecFile SpecPdf SpecTyped SpecColor SpecSmall SpecTw SpecEnums SpecRoles SpecTwArgs
  SpecTwFiles SpecTwGraphics SpecTwAnnot SpecTwForms SpecTwAttr SpecTwXObj SpecTwFonts SpecTwDoc SpecFontDesc SpecDoc
  ProofTyped ProofColor ProofTw ProofEnums ProofTwArgs ProofTwFiles ProofTwGraphics ProofTwAnnot ProofTwForms ProofTwAttr ProofTwXObj ProofTwFonts ProofTwDoc ProofFontDesc PropTree.
Import ListNotations.
Local Open Scope Z_scope.

Definition good_body (b : body) (R : Z -> indirect -> Prop) : Prop :=
  body_typed b = true /\ body_readable b = true /\ forall id i, item_means (id, b) i -> R id i.

Lemma ok_typed : forall o, obj_ok o = true -> obj_typed o = true.
Proof.
  fix IH 1. intros [p|l|l]; cbn [obj_ok obj_typed].
  - destruct p; cbn [prim_ok prim_typed]; unfold real_ok; intro H; repeat (apply andb_true_iff in H as [H ?]);
      repeat match goal with K : _ && _ = true |- _ => apply andb_true_iff in K as [? K] end;
      try assumption; try reflexivity; repeat (apply andb_true_iff; split); assumption.
  - induction l as [|o l IHl]; cbn [forallb]; [reflexivity|]. intro H. apply andb_true_iff in H as [H1 H2].
    rewrite (IH o H1), (IHl H2). reflexivity.
  - induction l as [|[k o] l IHl]; cbn [forallb snd]; [reflexivity|]. intro H. apply andb_true_iff in H as [H1 H2].
    rewrite (IH o H1), (IHl H2). reflexivity.
Qed.
Lemma good_body_obj o P : good o P -> good_body (BObj o) (fun id => is_object id P).
Proof.
  intros [F M]. unfold fine in F. apply andb_true_iff in F as [F1 F2]. split; [apply ok_typed; exact F1|].
  split; [cbn [body_readable]; rewrite F1, (C11_nonempty_names_suffice _ F2); reflexivity|].
  intros id i H. inversion H; subst. eexists. split; [reflexivity|]. apply M. assumption.
Qed.
Lemma good_body_stream es xs data : good_entries es xs -> good_body (BStream es data) (fun id => is_stream id xs data).
Proof.
  intro G. destruct (good_dict _ _ G) as [F M]. unfold fine in F. apply andb_true_iff in F as [F1 F2].
  split; [exact (ok_typed _ F1)|]. split.
  { cbn [body_readable]. unfold entries_readable. rewrite F1, (C11_nonempty_names_suffice _ F2). reflexivity. }
  intros id i H. inversion H; subst. eexists. split; [reflexivity|]. apply M. assumption.
Qed.

Lemma icc_call_good c es : icc_ok c = true -> option_map (fun e => [e]) (icc_entry c) = Some es -> good_entries es (icc_call_doc c).
Proof.
  intros K E. destruct c as [n|c|n|l|r]; cbn [icc_entry icc_ok icc_call_doc] in *.
  - destruct ((n =? 1) || (n =? 3) || (n =? 4)); [|discriminate]. apply some_inj in E. subst es.
    apply good_cons; [reflexivity|apply good_int; exact K|constructor].
  - destruct (cs_obj c) as [o|] eqn:X; [|discriminate]. apply some_inj in E. subst es.
    apply good_cons; [reflexivity|eapply good_cs; eassumption|constructor].
  - apply some_inj in E. subst es. apply good_cons; [reflexivity|apply good_name; exact K|constructor].
  - apply some_inj in E. subst es. apply good_cons; [reflexivity|apply good_reals; exact K|constructor].
  - apply some_inj in E. subst es. apply good_cons; [reflexivity|apply good_ref; exact K|constructor].
Qed.
Lemma good_icc calls es : forallb (stream_ok Stream_call_ok icc_ok) calls = true -> icc_dict calls = Some es -> good_entries es (icc_doc calls).
Proof.
  intros K E. change (icc_doc calls) with ([] ++ icc_doc calls). unfold icc_dict in E. unfold icc_doc.
  eapply good_stream; [constructor|exact Stream_good|exact icc_call_good|exact K|exact E].
Qed.

Lemma chunk_call_good c b : chunk_call_ok c = true -> chunk_call_body c = Some b -> good_body b (fun id => chunk_call_reads id c).
Proof.
  intros K E. destruct c; cbn [chunk_call_ok chunk_call_body chunk_call_reads] in *.
  - apply some_inj in E. subst b. apply good_body_obj. apply (good_Pages). exact K.
  - destruct (Page_obj calls) as [o|] eqn:X; [|discriminate]. apply some_inj in E. subst b. apply good_body_obj. eapply good_Page; eassumption.
  - destruct (Outline_obj calls) as [o|] eqn:X; [|discriminate]. apply some_inj in E. subst b. apply good_body_obj. eapply good_Outline; eassumption.
  - apply some_inj in E. subst b. apply good_body_obj. apply (good_OutlineItem). exact K.
  - apply some_inj in E. subst b. apply good_body_obj. apply (good_Destination). exact K.
  - apply some_inj in E. subst b. apply good_body_obj. apply (good_dict_of Destination_obj Destination_reads Destination_ok _ good_Destination). exact K.
  - apply some_inj in E. subst b. apply good_body_obj. apply (good_FileSpec). exact K.
  - destruct (EmbeddedFile_dict calls) as [es|] eqn:X; [|discriminate]. apply some_inj in E. subst b. apply good_body_stream. eapply good_EmbeddedFile; eassumption.
  - apply some_inj in E. subst b. apply good_body_obj. apply (good_StructElement). exact K.
  - apply some_inj in E. subst b. apply good_body_obj. apply (good_Namespace). exact K.
  - destruct (Metadata_dict calls) as [es|] eqn:X; [|discriminate]. apply some_inj in E. subst b. apply good_body_stream. eapply good_Metadata; eassumption.
  - destruct (ImageXObject_dict calls) as [es|] eqn:X; [|discriminate]. apply some_inj in E. subst b. apply good_body_stream. eapply good_ImageXObject; eassumption.
  - destruct (FormXObject_dict calls) as [es|] eqn:X; [|discriminate]. apply some_inj in E. subst b. apply good_body_stream. eapply good_FormXObject; eassumption.
  - apply some_inj in E. subst b. apply good_body_obj. apply (good_ExtGraphicsState). exact K.
  - apply some_inj in E. subst b. apply good_body_obj. apply (good_Type1Font). exact K.
  - apply some_inj in E. subst b. apply good_body_obj. apply (good_Type3Font). exact K.
  - apply some_inj in E. subst b. apply good_body_obj. apply (good_Type0Font). exact K.
  - apply some_inj in E. subst b. apply good_body_obj. apply (good_CidFont). exact K.
  - apply some_inj in E. subst b. apply good_body_obj. apply (good_fd). exact K.
  - destruct (Cmap_dict calls) as [es|] eqn:X; [|discriminate]. apply some_inj in E. subst b. apply good_body_stream. eapply good_Cmap; eassumption.
  - destruct (cs_obj calls) as [o|] eqn:X; [|discriminate]. apply some_inj in E. subst b. apply good_body_obj. eapply good_cs; eassumption.
  - destruct (FunctionShading_obj calls) as [o|] eqn:X; [|discriminate]. apply some_inj in E. subst b. apply good_body_obj. eapply good_FunctionShading; eassumption.
  - destruct (StreamShading_dict calls) as [es|] eqn:X; [|discriminate]. apply some_inj in E. subst b. apply good_body_stream. eapply good_StreamShading; eassumption.
  - destruct (TilingPattern_dict calls) as [es|] eqn:X; [|discriminate]. apply some_inj in E. subst b. apply good_body_stream. eapply good_TilingPattern; eassumption.
  - destruct (ShadingPattern_obj calls) as [o|] eqn:X; [|discriminate]. apply some_inj in E. subst b. apply good_body_obj. eapply good_ShadingPattern; eassumption.
  - destruct (icc_dict calls) as [es|] eqn:X; [|discriminate]. apply some_inj in E. subst b. apply good_body_stream. eapply good_icc; eassumption.
  - destruct (SampledFunction_dict calls) as [es|] eqn:X; [|discriminate]. apply some_inj in E. subst b. apply good_body_stream. eapply good_SampledFunction; eassumption.
  - apply some_inj in E. subst b. apply good_body_obj. apply (good_ExponentialFunction). exact K.
  - apply some_inj in E. subst b. apply good_body_obj. apply (good_StitchingFunction). exact K.
  - destruct (PostScriptFunction_dict calls) as [es|] eqn:X; [|discriminate]. apply some_inj in E. subst b. apply good_body_stream. eapply good_PostScriptFunction; eassumption.
  - apply some_inj in E. subst b. apply good_body_obj. apply (good_name_tree). exact K.
  - apply some_inj in E. subst b. apply good_body_obj. apply (good_number_tree). exact K.
  - apply some_inj in E. subst b. apply good_body_obj. apply (good_Annotation). exact K.
  - apply some_inj in E. subst b. apply good_body_obj. apply (good_Field). exact K.
  - apply some_inj in E. subst b. apply good_body_obj. apply (good_SignatureFieldLock). exact K.
  - apply some_inj in E. subst b. apply good_body_obj. apply (good_SignatureSeedValue). exact K.
  - destruct (Stream_dict calls) as [es|] eqn:X; [|discriminate]. apply some_inj in E. subst b. apply good_body_stream. eapply good_Stream; eassumption.
Qed.

Lemma icc_dict_none calls : icc_dict calls <> None <-> Forall (stream_allowed Stream_call_allowed icc_allowed) calls.
Proof. apply stream_none; [exact Stream_none|]. intro c. rewrite omap_none. apply icc_none. Qed.

Lemma chunk_call_none c : chunk_call_body c <> None <-> chunk_call_allowed c.
Proof.
  destruct c; cbn [chunk_call_body chunk_call_allowed];
    try (split; [intros _; exact I|intros _; discriminate]); rewrite omap_none; try reflexivity.
  - apply Page_obj_none.
  - apply Outline_obj_none.
  - apply EmbeddedFile_dict_none.
  - apply Metadata_dict_none.
  - apply ImageXObject_dict_none.
  - apply FormXObject_dict_none.
  - apply Cmap_dict_none.
  - apply cs_none.
  - apply FunctionShading_obj_none.
  - apply StreamShading_dict_none.
  - apply TilingPattern_dict_none.
  - apply ShadingPattern_obj_none.
  - apply icc_dict_none.
  - apply SampledFunction_dict_none.
  - apply PostScriptFunction_dict_none.
  - apply Stream_dict_none.
Qed.
