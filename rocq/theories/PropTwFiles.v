(** Properties of typed writers: streams and files. *)

From Coq Require Import ZArith List Bool.
From Verif Require ModelContent ModelCmap.
From Verif Require Import Bytes ModelFloat ModelBuf ModelObject ModelColor ModelSmall ModelPdf ModelTw ModelEnums ModelRoles ModelTwArgs  ModelTwFiles ModelChunk SpecLex SpecObj SpecText SpecMeans SpecPdf SpecTyped SpecColor SpecSmall SpecTw SpecEnums SpecRoles SpecTwArgs  SpecTwFiles SpecChunk ProofTyped ProofColor ProofTw ProofEnums ProofTwArgs  ProofTwFiles.
Import ListNotations.
Local Open Scope Z_scope.

(** ** DecodeParms *)

Theorem C56_decode_parms : forall calls o, DecodeParms_ok calls = true -> DecodeParms_obj calls = Some o -> reads o (DecodeParms_reads calls).
Proof. intros cs o H E. apply good_reads. apply good_DecodeParms; assumption. Qed.
Theorem C44_decode_parms : forall calls, DecodeParms_obj calls <> None <-> DecodeParms_allowed calls.
Proof. exact DecodeParms_obj_none. Qed.
Example decode_parms_case : DecodeParms_ok DecodeParms_sample = true /\ DecodeParms_obj DecodeParms_sample <> None.
Proof. vm_compute. split; [reflexivity|discriminate]. Qed.

(** ** Stream *)

Theorem C56_stream : forall calls es, Stream_ok calls = true -> Stream_dict calls = Some es -> stream_reads es (Stream_reads calls).
Proof. intros cs es H E. apply good_stream_reads. apply good_Stream; assumption. Qed.
Theorem C44_stream : forall calls, Stream_dict calls <> None <-> Stream_allowed calls.
Proof. exact Stream_dict_none. Qed.
Example stream_case : Stream_ok Stream_sample = true /\ Stream_dict Stream_sample <> None.
Proof. vm_compute. split; [reflexivity|discriminate]. Qed.

(** ** FileSpec *)

Theorem C56_file_spec : forall calls, FileSpec_ok calls = true -> reads (FileSpec_obj calls) (FileSpec_reads calls).
Proof. intros cs H. apply good_reads. apply good_FileSpec. exact H. Qed.
Example file_spec_case : FileSpec_ok FileSpec_sample = true.
Proof. vm_compute. reflexivity. Qed.

(** ** EmbeddingParams *)

Theorem C56_embedding_params : forall calls, EmbeddingParams_ok calls = true -> reads (EmbeddingParams_obj calls) (EmbeddingParams_reads calls).
Proof. intros cs H. apply good_reads. apply good_EmbeddingParams. exact H. Qed.
Example embedding_params_case : EmbeddingParams_ok EmbeddingParams_sample = true.
Proof. vm_compute. reflexivity. Qed.

(** ** EmbeddedFile *)

Theorem C56_embedded_file : forall calls es, EmbeddedFile_ok calls = true -> EmbeddedFile_dict calls = Some es -> stream_reads es (EmbeddedFile_reads calls).
Proof. intros cs es H E. apply good_stream_reads. apply good_EmbeddedFile; assumption. Qed.
Theorem C44_embedded_file : forall calls, EmbeddedFile_dict calls <> None <-> EmbeddedFile_allowed calls.
Proof. exact EmbeddedFile_dict_none. Qed.
Example embedded_file_case : EmbeddedFile_ok EmbeddedFile_sample = true /\ EmbeddedFile_dict EmbeddedFile_sample <> None.
Proof. vm_compute. split; [reflexivity|discriminate]. Qed.

Print Assumptions C56_decode_parms.
Print Assumptions C44_decode_parms.
Print Assumptions C56_stream.
Print Assumptions C44_stream.
Print Assumptions C56_file_spec.
Print Assumptions C56_embedding_params.
Print Assumptions C56_embedded_file.
Print Assumptions C44_embedded_file.
