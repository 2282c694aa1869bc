(** Proofs about typed writers: streams and files.  Generated by gen/gen_writers.py. *)

From Coq Require Import ZArith List Bool.
From Verif Require ModelContent ModelCmap.
From Verif Require Import Bytes ModelFloat ModelBuf ModelObject ModelColor ModelSmall ModelPdf ModelTw ModelEnums ModelRoles ModelTwArgs  ModelTwFiles SpecLex SpecObj SpecText SpecMeans SpecPdf SpecTyped SpecColor SpecSmall SpecTw SpecEnums SpecRoles SpecTwArgs  SpecTwFiles ProofTyped ProofColor ProofTw ProofEnums ProofTwArgs.
Import ListNotations.
Local Open Scope Z_scope.

Lemma DecodeParms_head_good : good_entries DecodeParms_header DecodeParms_head.
Proof. unfold DecodeParms_header, DecodeParms_head. tw_entries. Qed.
Lemma DecodeParms_good c es : DecodeParms_call_ok c = true -> DecodeParms_entries c = Some es -> good_entries es (DecodeParms_doc c).
Proof. destruct c; cbn [DecodeParms_entries DecodeParms_doc DecodeParms_call_ok]; tw_call_opt. Qed.
Lemma DecodeParms_none c : DecodeParms_entries c <> None <-> DecodeParms_call_allowed c.
Proof. destruct c; cbn [DecodeParms_entries DecodeParms_call_allowed]; tw_none. Qed.
Lemma good_DecodeParms cs o : DecodeParms_ok cs = true -> DecodeParms_obj cs = Some o -> good o (DecodeParms_reads cs).
Proof. intros H E. eapply good_writer_opt; [exact DecodeParms_head_good|exact DecodeParms_good|exact H|exact E]. Qed.
Lemma DecodeParms_obj_none cs : DecodeParms_obj cs <> None <-> DecodeParms_allowed cs.
Proof. apply writer_opt_none. exact DecodeParms_none. Qed.
#[export] Hint Resolve good_DecodeParms : tw.
#[export] Hint Resolve DecodeParms_obj_none : twn.

Lemma Stream_good c es : Stream_call_ok c = true -> Stream_entries c = Some es -> good_entries es (Stream_doc c).
Proof. destruct c; cbn [Stream_entries Stream_doc Stream_call_ok]; tw_call_opt. Qed.
Lemma Stream_none c : Stream_entries c <> None <-> Stream_call_allowed c.
Proof. destruct c; cbn [Stream_entries Stream_call_allowed]; tw_none. Qed.
Lemma good_Stream cs es : Stream_ok cs = true -> Stream_dict cs = Some es -> good_entries es (Stream_reads cs).
Proof. intros H E. eapply good_list_opt; [exact good_nil|exact Stream_good|exact H|exact E]. Qed.
Lemma Stream_dict_none cs : Stream_dict cs <> None <-> Stream_allowed cs.
Proof. apply list_opt_none. exact Stream_none. Qed.

Lemma FileSpec_head_good : good_entries FileSpec_header FileSpec_head.
Proof. unfold FileSpec_header, FileSpec_head. tw_entries. Qed.
Lemma FileSpec_good c : FileSpec_call_ok c = true -> good_entries (FileSpec_entries c) (FileSpec_doc c).
Proof. destruct c; cbn [FileSpec_entries FileSpec_doc FileSpec_call_ok]; tw_call. Qed.
Lemma good_FileSpec cs : FileSpec_ok cs = true -> good (FileSpec_obj cs) (FileSpec_reads cs).
Proof. intro H. eapply good_writer; [exact FileSpec_head_good|exact FileSpec_good|exact H]. Qed.
#[export] Hint Resolve good_FileSpec : tw.
#[export] Hint Resolve FileSpec_head_good FileSpec_good : twh.
#[export] Hint Extern 1 (good (arr_of FileSpec_obj _) _) => apply (good_arr_of FileSpec_obj FileSpec_reads FileSpec_ok _ good_FileSpec) : tw.
#[export] Hint Extern 1 (good (dict_of FileSpec_obj _) _) => apply (good_dict_of FileSpec_obj FileSpec_reads FileSpec_ok _ good_FileSpec) : tw.

Lemma EmbeddingParams_head_good : good_entries EmbeddingParams_header EmbeddingParams_head.
Proof. unfold EmbeddingParams_header, EmbeddingParams_head. tw_entries. Qed.
Lemma EmbeddingParams_good c : EmbeddingParams_call_ok c = true -> good_entries (EmbeddingParams_entries c) (EmbeddingParams_doc c).
Proof. destruct c; cbn [EmbeddingParams_entries EmbeddingParams_doc EmbeddingParams_call_ok]; tw_call. Qed.
Lemma good_EmbeddingParams cs : EmbeddingParams_ok cs = true -> good (EmbeddingParams_obj cs) (EmbeddingParams_reads cs).
Proof. intro H. eapply good_writer; [exact EmbeddingParams_head_good|exact EmbeddingParams_good|exact H]. Qed.
#[export] Hint Resolve good_EmbeddingParams : tw.
#[export] Hint Resolve EmbeddingParams_head_good EmbeddingParams_good : twh.
#[export] Hint Extern 1 (good (arr_of EmbeddingParams_obj _) _) => apply (good_arr_of EmbeddingParams_obj EmbeddingParams_reads EmbeddingParams_ok _ good_EmbeddingParams) : tw.
#[export] Hint Extern 1 (good (dict_of EmbeddingParams_obj _) _) => apply (good_dict_of EmbeddingParams_obj EmbeddingParams_reads EmbeddingParams_ok _ good_EmbeddingParams) : tw.

Lemma EmbeddedFile_good c es : EmbeddedFile_call_ok c = true -> EmbeddedFile_entries c = Some es -> good_entries es (EmbeddedFile_doc c).
Proof. destruct c; cbn [EmbeddedFile_entries EmbeddedFile_doc EmbeddedFile_call_ok]; tw_call_opt. Qed.
Lemma EmbeddedFile_none c : EmbeddedFile_entries c <> None <-> EmbeddedFile_call_allowed c.
Proof. destruct c; cbn [EmbeddedFile_entries EmbeddedFile_call_allowed]; tw_none. Qed.
Lemma EmbeddedFile_head_good : good_entries EmbeddedFile_header EmbeddedFile_head.
Proof. unfold EmbeddedFile_header, EmbeddedFile_head. tw_entries. Qed.
Lemma good_EmbeddedFile cs es : EmbeddedFile_ok cs = true -> EmbeddedFile_dict cs = Some es -> good_entries es (EmbeddedFile_reads cs).
Proof. intros H E. eapply good_stream; [exact EmbeddedFile_head_good|exact Stream_good|exact EmbeddedFile_good|exact H|exact E]. Qed.
Lemma EmbeddedFile_dict_none cs : EmbeddedFile_dict cs <> None <-> EmbeddedFile_allowed cs.
Proof. apply stream_none; [exact Stream_none|exact EmbeddedFile_none]. Qed.
