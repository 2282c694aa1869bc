(** Proofs about typed writers: resources, graphics state, patterns, shadings, output intents.  Generated by gen/gen_writers.py. *)

From Coq Require Import ZArith List Bool.
From Verif Require ModelContent ModelCmap.
From Verif Require Import Bytes ModelFloat ModelBuf ModelObject ModelColor ModelSmall ModelPdf ModelTw ModelEnums ModelRoles ModelTwArgs ModelTwFiles ModelTwGraphics SpecLex SpecObj SpecText SpecMeans SpecPdf SpecTyped SpecColor SpecSmall SpecTw SpecEnums SpecRoles SpecTwArgs SpecTwFiles SpecTwGraphics ProofTyped ProofColor ProofTw ProofEnums ProofTwArgs ProofTwFiles.
Import ListNotations.
Local Open Scope Z_scope.

Lemma Artifact_head_good : good_entries Artifact_header Artifact_head.
Proof. unfold Artifact_header, Artifact_head. tw_entries. Qed.
Lemma Artifact_good c : Artifact_call_ok c = true -> good_entries (Artifact_entries c) (Artifact_doc c).
Proof. destruct c; cbn [Artifact_entries Artifact_doc Artifact_call_ok]; tw_call. Qed.
Lemma good_Artifact cs : Artifact_ok cs = true -> good (Artifact_obj cs) (Artifact_reads cs).
Proof. intro H. eapply good_writer; [exact Artifact_head_good|exact Artifact_good|exact H]. Qed.
#[export] Hint Resolve good_Artifact : tw.
#[export] Hint Resolve Artifact_head_good Artifact_good : twh.
#[export] Hint Extern 1 (good (arr_of Artifact_obj _) _) => apply (good_arr_of Artifact_obj Artifact_reads Artifact_ok _ good_Artifact) : tw.
#[export] Hint Extern 1 (good (dict_of Artifact_obj _) _) => apply (good_dict_of Artifact_obj Artifact_reads Artifact_ok _ good_Artifact) : tw.

Lemma PropertyList_head_good : good_entries PropertyList_header PropertyList_head.
Proof. unfold PropertyList_header, PropertyList_head. tw_entries. Qed.
Lemma PropertyList_good c : PropertyList_call_ok c = true -> good_entries (PropertyList_entries c) (PropertyList_doc c).
Proof. destruct c; cbn [PropertyList_entries PropertyList_doc PropertyList_call_ok]; tw_call. Qed.
Lemma good_PropertyList cs : PropertyList_ok cs = true -> good (PropertyList_obj cs) (PropertyList_reads cs).
Proof. intro H. eapply good_writer; [exact PropertyList_head_good|exact PropertyList_good|exact H]. Qed.
#[export] Hint Resolve good_PropertyList : tw.
#[export] Hint Resolve PropertyList_head_good PropertyList_good : twh.
#[export] Hint Extern 1 (good (arr_of PropertyList_obj _) _) => apply (good_arr_of PropertyList_obj PropertyList_reads PropertyList_ok _ good_PropertyList) : tw.
#[export] Hint Extern 1 (good (dict_of PropertyList_obj _) _) => apply (good_dict_of PropertyList_obj PropertyList_reads PropertyList_ok _ good_PropertyList) : tw.

Lemma Resources_head_good : good_entries Resources_header Resources_head.
Proof. unfold Resources_header, Resources_head. tw_entries. Qed.
Lemma Resources_good c : Resources_call_ok c = true -> good_entries (Resources_entries c) (Resources_doc c).
Proof. destruct c; cbn [Resources_entries Resources_doc Resources_call_ok]; tw_call. Qed.
Lemma good_Resources cs : Resources_ok cs = true -> good (Resources_obj cs) (Resources_reads cs).
Proof. intro H. eapply good_writer; [exact Resources_head_good|exact Resources_good|exact H]. Qed.
#[export] Hint Resolve good_Resources : tw.
#[export] Hint Resolve Resources_head_good Resources_good : twh.
#[export] Hint Extern 1 (good (arr_of Resources_obj _) _) => apply (good_arr_of Resources_obj Resources_reads Resources_ok _ good_Resources) : tw.
#[export] Hint Extern 1 (good (dict_of Resources_obj _) _) => apply (good_dict_of Resources_obj Resources_reads Resources_ok _ good_Resources) : tw.

Lemma SoftMask_head_good : good_entries SoftMask_header SoftMask_head.
Proof. unfold SoftMask_header, SoftMask_head. tw_entries. Qed.
Lemma SoftMask_good c : SoftMask_call_ok c = true -> good_entries (SoftMask_entries c) (SoftMask_doc c).
Proof. destruct c; cbn [SoftMask_entries SoftMask_doc SoftMask_call_ok]; tw_call. Qed.
Lemma good_SoftMask cs : SoftMask_ok cs = true -> good (SoftMask_obj cs) (SoftMask_reads cs).
Proof. intro H. eapply good_writer; [exact SoftMask_head_good|exact SoftMask_good|exact H]. Qed.
#[export] Hint Resolve good_SoftMask : tw.
#[export] Hint Resolve SoftMask_head_good SoftMask_good : twh.
#[export] Hint Extern 1 (good (arr_of SoftMask_obj _) _) => apply (good_arr_of SoftMask_obj SoftMask_reads SoftMask_ok _ good_SoftMask) : tw.
#[export] Hint Extern 1 (good (dict_of SoftMask_obj _) _) => apply (good_dict_of SoftMask_obj SoftMask_reads SoftMask_ok _ good_SoftMask) : tw.

Lemma ExtGraphicsState_head_good : good_entries ExtGraphicsState_header ExtGraphicsState_head.
Proof. unfold ExtGraphicsState_header, ExtGraphicsState_head. tw_entries. Qed.
Lemma ExtGraphicsState_good c : ExtGraphicsState_call_ok c = true -> good_entries (ExtGraphicsState_entries c) (ExtGraphicsState_doc c).
Proof. destruct c; cbn [ExtGraphicsState_entries ExtGraphicsState_doc ExtGraphicsState_call_ok]; tw_call. Qed.
Lemma good_ExtGraphicsState cs : ExtGraphicsState_ok cs = true -> good (ExtGraphicsState_obj cs) (ExtGraphicsState_reads cs).
Proof. intro H. eapply good_writer; [exact ExtGraphicsState_head_good|exact ExtGraphicsState_good|exact H]. Qed.
#[export] Hint Resolve good_ExtGraphicsState : tw.
#[export] Hint Resolve ExtGraphicsState_head_good ExtGraphicsState_good : twh.
#[export] Hint Extern 1 (good (arr_of ExtGraphicsState_obj _) _) => apply (good_arr_of ExtGraphicsState_obj ExtGraphicsState_reads ExtGraphicsState_ok _ good_ExtGraphicsState) : tw.
#[export] Hint Extern 1 (good (dict_of ExtGraphicsState_obj _) _) => apply (good_dict_of ExtGraphicsState_obj ExtGraphicsState_reads ExtGraphicsState_ok _ good_ExtGraphicsState) : tw.

Lemma TilingPattern_good c es : TilingPattern_call_ok c = true -> TilingPattern_entries c = Some es -> good_entries es (TilingPattern_doc c).
Proof. destruct c; cbn [TilingPattern_entries TilingPattern_doc TilingPattern_call_ok]; tw_call_opt. Qed.
Lemma TilingPattern_none c : TilingPattern_entries c <> None <-> TilingPattern_call_allowed c.
Proof. destruct c; cbn [TilingPattern_entries TilingPattern_call_allowed]; tw_none. Qed.
Lemma TilingPattern_head_good : good_entries TilingPattern_header TilingPattern_head.
Proof. unfold TilingPattern_header, TilingPattern_head. tw_entries. Qed.
Lemma good_TilingPattern cs es : TilingPattern_ok cs = true -> TilingPattern_dict cs = Some es -> good_entries es (TilingPattern_reads cs).
Proof. intros H E. eapply good_stream; [exact TilingPattern_head_good|exact Stream_good|exact TilingPattern_good|exact H|exact E]. Qed.
Lemma TilingPattern_dict_none cs : TilingPattern_dict cs <> None <-> TilingPattern_allowed cs.
Proof. apply stream_none; [exact Stream_none|exact TilingPattern_none]. Qed.

Lemma FunctionShading_head_good : good_entries FunctionShading_header FunctionShading_head.
Proof. unfold FunctionShading_header, FunctionShading_head. tw_entries. Qed.
Lemma FunctionShading_good c es : FunctionShading_call_ok c = true -> FunctionShading_entries c = Some es -> good_entries es (FunctionShading_doc c).
Proof. destruct c; cbn [FunctionShading_entries FunctionShading_doc FunctionShading_call_ok]; tw_call_opt. Qed.
Lemma FunctionShading_none c : FunctionShading_entries c <> None <-> FunctionShading_call_allowed c.
Proof. destruct c; cbn [FunctionShading_entries FunctionShading_call_allowed]; tw_none. Qed.
Lemma good_FunctionShading cs o : FunctionShading_ok cs = true -> FunctionShading_obj cs = Some o -> good o (FunctionShading_reads cs).
Proof. intros H E. eapply good_writer_opt; [exact FunctionShading_head_good|exact FunctionShading_good|exact H|exact E]. Qed.
Lemma FunctionShading_obj_none cs : FunctionShading_obj cs <> None <-> FunctionShading_allowed cs.
Proof. apply writer_opt_none. exact FunctionShading_none. Qed.
#[export] Hint Resolve good_FunctionShading : tw.
#[export] Hint Resolve FunctionShading_obj_none : twn.

Lemma ShadingPattern_head_good : good_entries ShadingPattern_header ShadingPattern_head.
Proof. unfold ShadingPattern_header, ShadingPattern_head. tw_entries. Qed.
Lemma ShadingPattern_good c es : ShadingPattern_call_ok c = true -> ShadingPattern_entries c = Some es -> good_entries es (ShadingPattern_doc c).
Proof. destruct c; cbn [ShadingPattern_entries ShadingPattern_doc ShadingPattern_call_ok]; tw_call_opt. Qed.
Lemma ShadingPattern_none c : ShadingPattern_entries c <> None <-> ShadingPattern_call_allowed c.
Proof. destruct c; cbn [ShadingPattern_entries ShadingPattern_call_allowed]; tw_none. Qed.
Lemma good_ShadingPattern cs o : ShadingPattern_ok cs = true -> ShadingPattern_obj cs = Some o -> good o (ShadingPattern_reads cs).
Proof. intros H E. eapply good_writer_opt; [exact ShadingPattern_head_good|exact ShadingPattern_good|exact H|exact E]. Qed.
Lemma ShadingPattern_obj_none cs : ShadingPattern_obj cs <> None <-> ShadingPattern_allowed cs.
Proof. apply writer_opt_none. exact ShadingPattern_none. Qed.
#[export] Hint Resolve good_ShadingPattern : tw.
#[export] Hint Resolve ShadingPattern_obj_none : twn.

Lemma StreamShading_good c es : StreamShading_call_ok c = true -> StreamShading_entries c = Some es -> good_entries es (StreamShading_doc c).
Proof. destruct c; cbn [StreamShading_entries StreamShading_doc StreamShading_call_ok]; tw_call_opt. Qed.
Lemma StreamShading_none c : StreamShading_entries c <> None <-> StreamShading_call_allowed c.
Proof. destruct c; cbn [StreamShading_entries StreamShading_call_allowed]; tw_none. Qed.
Lemma StreamShading_head_good : good_entries StreamShading_header StreamShading_head.
Proof. unfold StreamShading_header, StreamShading_head. tw_entries. Qed.
Lemma good_StreamShading cs es : StreamShading_ok cs = true -> StreamShading_dict cs = Some es -> good_entries es (StreamShading_reads cs).
Proof. intros H E. eapply good_stream; [exact StreamShading_head_good|exact Stream_good|exact StreamShading_good|exact H|exact E]. Qed.
Lemma StreamShading_dict_none cs : StreamShading_dict cs <> None <-> StreamShading_allowed cs.
Proof. apply stream_none; [exact Stream_none|exact StreamShading_none]. Qed.

Lemma SeparationInfo_head_good : good_entries SeparationInfo_header SeparationInfo_head.
Proof. unfold SeparationInfo_header, SeparationInfo_head. tw_entries. Qed.
Lemma SeparationInfo_good c es : SeparationInfo_call_ok c = true -> SeparationInfo_entries c = Some es -> good_entries es (SeparationInfo_doc c).
Proof. destruct c; cbn [SeparationInfo_entries SeparationInfo_doc SeparationInfo_call_ok]; tw_call_opt. Qed.
Lemma SeparationInfo_none c : SeparationInfo_entries c <> None <-> SeparationInfo_call_allowed c.
Proof. destruct c; cbn [SeparationInfo_entries SeparationInfo_call_allowed]; tw_none. Qed.
Lemma good_SeparationInfo cs o : SeparationInfo_ok cs = true -> SeparationInfo_obj cs = Some o -> good o (SeparationInfo_reads cs).
Proof. intros H E. eapply good_writer_opt; [exact SeparationInfo_head_good|exact SeparationInfo_good|exact H|exact E]. Qed.
Lemma SeparationInfo_obj_none cs : SeparationInfo_obj cs <> None <-> SeparationInfo_allowed cs.
Proof. apply writer_opt_none. exact SeparationInfo_none. Qed.
#[export] Hint Resolve good_SeparationInfo : tw.
#[export] Hint Resolve SeparationInfo_obj_none : twn.

Lemma OutputIntent_head_good : good_entries OutputIntent_header OutputIntent_head.
Proof. unfold OutputIntent_header, OutputIntent_head. tw_entries. Qed.
Lemma OutputIntent_good c : OutputIntent_call_ok c = true -> good_entries (OutputIntent_entries c) (OutputIntent_doc c).
Proof. destruct c; cbn [OutputIntent_entries OutputIntent_doc OutputIntent_call_ok]; tw_call. Qed.
Lemma good_OutputIntent cs : OutputIntent_ok cs = true -> good (OutputIntent_obj cs) (OutputIntent_reads cs).
Proof. intro H. eapply good_writer; [exact OutputIntent_head_good|exact OutputIntent_good|exact H]. Qed.
#[export] Hint Resolve good_OutputIntent : tw.
#[export] Hint Resolve OutputIntent_head_good OutputIntent_good : twh.
#[export] Hint Extern 1 (good (arr_of OutputIntent_obj _) _) => apply (good_arr_of OutputIntent_obj OutputIntent_reads OutputIntent_ok _ good_OutputIntent) : tw.
#[export] Hint Extern 1 (good (dict_of OutputIntent_obj _) _) => apply (good_dict_of OutputIntent_obj OutputIntent_reads OutputIntent_ok _ good_OutputIntent) : tw.

Lemma Group_head_good : good_entries Group_header Group_head.
Proof. unfold Group_header, Group_head. tw_entries. Qed.
Lemma Group_good c es : Group_call_ok c = true -> Group_entries c = Some es -> good_entries es (Group_doc c).
Proof. destruct c; cbn [Group_entries Group_doc Group_call_ok]; tw_call_opt. Qed.
Lemma Group_none c : Group_entries c <> None <-> Group_call_allowed c.
Proof. destruct c; cbn [Group_entries Group_call_allowed]; tw_none. Qed.
Lemma good_Group cs o : Group_ok cs = true -> Group_obj cs = Some o -> good o (Group_reads cs).
Proof. intros H E. eapply good_writer_opt; [exact Group_head_good|exact Group_good|exact H|exact E]. Qed.
Lemma Group_obj_none cs : Group_obj cs <> None <-> Group_allowed cs.
Proof. apply writer_opt_none. exact Group_none. Qed.
#[export] Hint Resolve good_Group : tw.
#[export] Hint Resolve Group_obj_none : twn.
