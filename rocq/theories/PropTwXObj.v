(** Properties of typed writers: XObjects, functions and metadata. *)

From Coq Require Import ZArith List Bool.
From Verif Require ModelContent ModelCmap.
From Verif Require Import Bytes ModelFloat ModelBuf ModelObject ModelColor ModelSmall ModelPdf ModelTw ModelEnums ModelRoles ModelTwArgs ModelTwFiles ModelTwGraphics ModelTwAnnot ModelTwForms ModelTwAttr ModelTwXObj ModelChunk SpecLex SpecObj SpecText SpecMeans SpecPdf SpecTyped SpecColor SpecSmall SpecTw SpecEnums SpecRoles SpecTwArgs SpecTwFiles SpecTwGraphics SpecTwAnnot SpecTwForms SpecTwAttr SpecTwXObj SpecChunk ProofTyped ProofColor ProofTw ProofEnums ProofTwArgs ProofTwFiles ProofTwGraphics ProofTwAnnot ProofTwForms ProofTwAttr ProofTwXObj.
Import ListNotations.
Local Open Scope Z_scope.

(** ** Reference *)

Theorem C56_reference : forall calls, Reference_ok calls = true -> reads (Reference_obj calls) (Reference_reads calls).
Proof. intros cs H. apply good_reads. apply good_Reference. exact H. Qed.
Example reference_case : Reference_ok Reference_sample = true.
Proof. vm_compute. reflexivity. Qed.

(** ** ImageXObject *)

Theorem C56_image_x_object : forall calls es, ImageXObject_ok calls = true -> ImageXObject_dict calls = Some es -> stream_reads es (ImageXObject_reads calls).
Proof. intros cs es H E. apply good_stream_reads. apply good_ImageXObject; assumption. Qed.
Theorem C44_image_x_object : forall calls, ImageXObject_dict calls <> None <-> ImageXObject_allowed calls.
Proof. exact ImageXObject_dict_none. Qed.
Example image_x_object_case : ImageXObject_ok ImageXObject_sample = true /\ ImageXObject_dict ImageXObject_sample <> None.
Proof. vm_compute. split; [reflexivity|discriminate]. Qed.

(** ** FormXObject *)

Theorem C56_form_x_object : forall calls es, FormXObject_ok calls = true -> FormXObject_dict calls = Some es -> stream_reads es (FormXObject_reads calls).
Proof. intros cs es H E. apply good_stream_reads. apply good_FormXObject; assumption. Qed.
Theorem C44_form_x_object : forall calls, FormXObject_dict calls <> None <-> FormXObject_allowed calls.
Proof. exact FormXObject_dict_none. Qed.
Example form_x_object_case : FormXObject_ok FormXObject_sample = true /\ FormXObject_dict FormXObject_sample <> None.
Proof. vm_compute. split; [reflexivity|discriminate]. Qed.

(** ** SampledFunction *)

Theorem C56_sampled_function : forall calls es, SampledFunction_ok calls = true -> SampledFunction_dict calls = Some es -> stream_reads es (SampledFunction_reads calls).
Proof. intros cs es H E. apply good_stream_reads. apply good_SampledFunction; assumption. Qed.
Theorem C44_sampled_function : forall calls, SampledFunction_dict calls <> None <-> SampledFunction_allowed calls.
Proof. exact SampledFunction_dict_none. Qed.
Example sampled_function_case : SampledFunction_ok SampledFunction_sample = true /\ SampledFunction_dict SampledFunction_sample <> None.
Proof. vm_compute. split; [reflexivity|discriminate]. Qed.

(** ** ExponentialFunction *)

Theorem C56_exponential_function : forall calls, ExponentialFunction_ok calls = true -> reads (ExponentialFunction_obj calls) (ExponentialFunction_reads calls).
Proof. intros cs H. apply good_reads. apply good_ExponentialFunction. exact H. Qed.
Example exponential_function_case : ExponentialFunction_ok ExponentialFunction_sample = true.
Proof. vm_compute. reflexivity. Qed.

(** ** StitchingFunction *)

Theorem C56_stitching_function : forall calls, StitchingFunction_ok calls = true -> reads (StitchingFunction_obj calls) (StitchingFunction_reads calls).
Proof. intros cs H. apply good_reads. apply good_StitchingFunction. exact H. Qed.
Example stitching_function_case : StitchingFunction_ok StitchingFunction_sample = true.
Proof. vm_compute. reflexivity. Qed.

(** ** PostScriptFunction *)

Theorem C56_post_script_function : forall calls es, PostScriptFunction_ok calls = true -> PostScriptFunction_dict calls = Some es -> stream_reads es (PostScriptFunction_reads calls).
Proof. intros cs es H E. apply good_stream_reads. apply good_PostScriptFunction; assumption. Qed.
Theorem C44_post_script_function : forall calls, PostScriptFunction_dict calls <> None <-> PostScriptFunction_allowed calls.
Proof. exact PostScriptFunction_dict_none. Qed.
Example post_script_function_case : PostScriptFunction_ok PostScriptFunction_sample = true /\ PostScriptFunction_dict PostScriptFunction_sample <> None.
Proof. vm_compute. split; [reflexivity|discriminate]. Qed.

(** ** Metadata *)

Theorem C56_metadata : forall calls es, Metadata_ok calls = true -> Metadata_dict calls = Some es -> stream_reads es (Metadata_reads calls).
Proof. intros cs es H E. apply good_stream_reads. apply good_Metadata; assumption. Qed.
Theorem C44_metadata : forall calls, Metadata_dict calls <> None <-> Metadata_allowed calls.
Proof. exact Metadata_dict_none. Qed.
Example metadata_case : Metadata_ok Metadata_sample = true /\ Metadata_dict Metadata_sample <> None.
Proof. vm_compute. split; [reflexivity|discriminate]. Qed.

Print Assumptions C56_reference.
Print Assumptions C56_image_x_object.
Print Assumptions C44_image_x_object.
Print Assumptions C56_form_x_object.
Print Assumptions C44_form_x_object.
Print Assumptions C56_sampled_function.
Print Assumptions C44_sampled_function.
Print Assumptions C56_exponential_function.
Print Assumptions C56_stitching_function.
Print Assumptions C56_post_script_function.
Print Assumptions C44_post_script_function.
Print Assumptions C56_metadata.
Print Assumptions C44_metadata.
