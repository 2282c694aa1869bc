(** Proofs about typed writers: XObjects, functions and metadata.  Generated by gen/gen_writers.py. *)

From Coq Require Import ZArith List Bool.
From Verif Require ModelContent ModelCmap.
From Verif Require Import Bytes ModelFloat ModelBuf ModelObject ModelColor ModelSmall ModelPdf ModelTw ModelEnums ModelRoles ModelTwArgs ModelTwFiles ModelTwGraphics ModelTwAnnot ModelTwForms ModelTwAttr ModelTwXObj SpecLex SpecObj SpecText SpecMeans SpecPdf SpecTyped SpecColor SpecSmall SpecTw SpecEnums SpecRoles SpecTwArgs SpecTwFiles SpecTwGraphics SpecTwAnnot SpecTwForms SpecTwAttr SpecTwXObj ProofTyped ProofColor ProofTw ProofEnums ProofTwArgs ProofTwFiles ProofTwGraphics ProofTwAnnot ProofTwForms ProofTwAttr.
Import ListNotations.
Local Open Scope Z_scope.

Lemma Reference_head_good : good_entries Reference_header Reference_head.
Proof. unfold Reference_header, Reference_head. tw_entries. Qed.
Lemma Reference_good c : Reference_call_ok c = true -> good_entries (Reference_entries c) (Reference_doc c).
Proof. destruct c; cbn [Reference_entries Reference_doc Reference_call_ok]; tw_call. Qed.
Lemma good_Reference cs : Reference_ok cs = true -> good (Reference_obj cs) (Reference_reads cs).
Proof. intro H. eapply good_writer; [exact Reference_head_good|exact Reference_good|exact H]. Qed.
#[export] Hint Resolve good_Reference : tw.
#[export] Hint Resolve Reference_head_good Reference_good : twh.
#[export] Hint Extern 1 (good (arr_of Reference_obj _) _) => apply (good_arr_of Reference_obj Reference_reads Reference_ok _ good_Reference) : tw.
#[export] Hint Extern 1 (good (dict_of Reference_obj _) _) => apply (good_dict_of Reference_obj Reference_reads Reference_ok _ good_Reference) : tw.

Lemma ImageXObject_good c es : ImageXObject_call_ok c = true -> ImageXObject_entries c = Some es -> good_entries es (ImageXObject_doc c).
Proof. destruct c; cbn [ImageXObject_entries ImageXObject_doc ImageXObject_call_ok]; tw_call_opt. Qed.
Lemma ImageXObject_none c : ImageXObject_entries c <> None <-> ImageXObject_call_allowed c.
Proof. destruct c; cbn [ImageXObject_entries ImageXObject_call_allowed]; tw_none. Qed.
Lemma ImageXObject_head_good : good_entries ImageXObject_header ImageXObject_head.
Proof. unfold ImageXObject_header, ImageXObject_head. tw_entries. Qed.
Lemma good_ImageXObject cs es : ImageXObject_ok cs = true -> ImageXObject_dict cs = Some es -> good_entries es (ImageXObject_reads cs).
Proof. intros H E. eapply good_stream; [exact ImageXObject_head_good|exact Stream_good|exact ImageXObject_good|exact H|exact E]. Qed.
Lemma ImageXObject_dict_none cs : ImageXObject_dict cs <> None <-> ImageXObject_allowed cs.
Proof. apply stream_none; [exact Stream_none|exact ImageXObject_none]. Qed.

Lemma FormXObject_good c es : FormXObject_call_ok c = true -> FormXObject_entries c = Some es -> good_entries es (FormXObject_doc c).
Proof. destruct c; cbn [FormXObject_entries FormXObject_doc FormXObject_call_ok]; tw_call_opt. Qed.
Lemma FormXObject_none c : FormXObject_entries c <> None <-> FormXObject_call_allowed c.
Proof. destruct c; cbn [FormXObject_entries FormXObject_call_allowed]; tw_none. Qed.
Lemma FormXObject_head_good : good_entries FormXObject_header FormXObject_head.
Proof. unfold FormXObject_header, FormXObject_head. tw_entries. Qed.
Lemma good_FormXObject cs es : FormXObject_ok cs = true -> FormXObject_dict cs = Some es -> good_entries es (FormXObject_reads cs).
Proof. intros H E. eapply good_stream; [exact FormXObject_head_good|exact Stream_good|exact FormXObject_good|exact H|exact E]. Qed.
Lemma FormXObject_dict_none cs : FormXObject_dict cs <> None <-> FormXObject_allowed cs.
Proof. apply stream_none; [exact Stream_none|exact FormXObject_none]. Qed.

Lemma SampledFunction_good c es : SampledFunction_call_ok c = true -> SampledFunction_entries c = Some es -> good_entries es (SampledFunction_doc c).
Proof. destruct c; cbn [SampledFunction_entries SampledFunction_doc SampledFunction_call_ok]; tw_call_opt. Qed.
Lemma SampledFunction_none c : SampledFunction_entries c <> None <-> SampledFunction_call_allowed c.
Proof. destruct c; cbn [SampledFunction_entries SampledFunction_call_allowed]; tw_none. Qed.
Lemma SampledFunction_head_good : good_entries SampledFunction_header SampledFunction_head.
Proof. unfold SampledFunction_header, SampledFunction_head. tw_entries. Qed.
Lemma good_SampledFunction cs es : SampledFunction_ok cs = true -> SampledFunction_dict cs = Some es -> good_entries es (SampledFunction_reads cs).
Proof. intros H E. eapply good_stream; [exact SampledFunction_head_good|exact Stream_good|exact SampledFunction_good|exact H|exact E]. Qed.
Lemma SampledFunction_dict_none cs : SampledFunction_dict cs <> None <-> SampledFunction_allowed cs.
Proof. apply stream_none; [exact Stream_none|exact SampledFunction_none]. Qed.

Lemma ExponentialFunction_head_good : good_entries ExponentialFunction_header ExponentialFunction_head.
Proof. unfold ExponentialFunction_header, ExponentialFunction_head. tw_entries. Qed.
Lemma ExponentialFunction_good c : ExponentialFunction_call_ok c = true -> good_entries (ExponentialFunction_entries c) (ExponentialFunction_doc c).
Proof. destruct c; cbn [ExponentialFunction_entries ExponentialFunction_doc ExponentialFunction_call_ok]; tw_call. Qed.
Lemma good_ExponentialFunction cs : ExponentialFunction_ok cs = true -> good (ExponentialFunction_obj cs) (ExponentialFunction_reads cs).
Proof. intro H. eapply good_writer; [exact ExponentialFunction_head_good|exact ExponentialFunction_good|exact H]. Qed.
#[export] Hint Resolve good_ExponentialFunction : tw.
#[export] Hint Resolve ExponentialFunction_head_good ExponentialFunction_good : twh.
#[export] Hint Extern 1 (good (arr_of ExponentialFunction_obj _) _) => apply (good_arr_of ExponentialFunction_obj ExponentialFunction_reads ExponentialFunction_ok _ good_ExponentialFunction) : tw.
#[export] Hint Extern 1 (good (dict_of ExponentialFunction_obj _) _) => apply (good_dict_of ExponentialFunction_obj ExponentialFunction_reads ExponentialFunction_ok _ good_ExponentialFunction) : tw.

Lemma StitchingFunction_head_good : good_entries StitchingFunction_header StitchingFunction_head.
Proof. unfold StitchingFunction_header, StitchingFunction_head. tw_entries. Qed.
Lemma StitchingFunction_good c : StitchingFunction_call_ok c = true -> good_entries (StitchingFunction_entries c) (StitchingFunction_doc c).
Proof. destruct c; cbn [StitchingFunction_entries StitchingFunction_doc StitchingFunction_call_ok]; tw_call. Qed.
Lemma good_StitchingFunction cs : StitchingFunction_ok cs = true -> good (StitchingFunction_obj cs) (StitchingFunction_reads cs).
Proof. intro H. eapply good_writer; [exact StitchingFunction_head_good|exact StitchingFunction_good|exact H]. Qed.
#[export] Hint Resolve good_StitchingFunction : tw.
#[export] Hint Resolve StitchingFunction_head_good StitchingFunction_good : twh.
#[export] Hint Extern 1 (good (arr_of StitchingFunction_obj _) _) => apply (good_arr_of StitchingFunction_obj StitchingFunction_reads StitchingFunction_ok _ good_StitchingFunction) : tw.
#[export] Hint Extern 1 (good (dict_of StitchingFunction_obj _) _) => apply (good_dict_of StitchingFunction_obj StitchingFunction_reads StitchingFunction_ok _ good_StitchingFunction) : tw.

Lemma PostScriptFunction_good c es : PostScriptFunction_call_ok c = true -> PostScriptFunction_entries c = Some es -> good_entries es (PostScriptFunction_doc c).
Proof. destruct c; cbn [PostScriptFunction_entries PostScriptFunction_doc PostScriptFunction_call_ok]; tw_call_opt. Qed.
Lemma PostScriptFunction_none c : PostScriptFunction_entries c <> None <-> PostScriptFunction_call_allowed c.
Proof. destruct c; cbn [PostScriptFunction_entries PostScriptFunction_call_allowed]; tw_none. Qed.
Lemma PostScriptFunction_head_good : good_entries PostScriptFunction_header PostScriptFunction_head.
Proof. unfold PostScriptFunction_header, PostScriptFunction_head. tw_entries. Qed.
Lemma good_PostScriptFunction cs es : PostScriptFunction_ok cs = true -> PostScriptFunction_dict cs = Some es -> good_entries es (PostScriptFunction_reads cs).
Proof. intros H E. eapply good_stream; [exact PostScriptFunction_head_good|exact Stream_good|exact PostScriptFunction_good|exact H|exact E]. Qed.
Lemma PostScriptFunction_dict_none cs : PostScriptFunction_dict cs <> None <-> PostScriptFunction_allowed cs.
Proof. apply stream_none; [exact Stream_none|exact PostScriptFunction_none]. Qed.

Lemma Metadata_good c es : Metadata_call_ok c = true -> Metadata_entries c = Some es -> good_entries es (Metadata_doc c).
Proof. destruct c; cbn [Metadata_entries Metadata_doc Metadata_call_ok]; tw_call_opt. Qed.
Lemma Metadata_none c : Metadata_entries c <> None <-> Metadata_call_allowed c.
Proof. destruct c; cbn [Metadata_entries Metadata_call_allowed]; tw_none. Qed.
Lemma Metadata_head_good : good_entries Metadata_header Metadata_head.
Proof. unfold Metadata_header, Metadata_head. tw_entries. Qed.
Lemma good_Metadata cs es : Metadata_ok cs = true -> Metadata_dict cs = Some es -> good_entries es (Metadata_reads cs).
Proof. intros H E. eapply good_stream; [exact Metadata_head_good|exact Stream_good|exact Metadata_good|exact H|exact E]. Qed.
Lemma Metadata_dict_none cs : Metadata_dict cs <> None <-> Metadata_allowed cs.
Proof. apply stream_none; [exact Stream_none|exact Metadata_none]. Qed.
