(** Properties of typed writers: resources, graphics state, patterns, shadings, output intents. *)

From Coq Require Import ZArith List Bool.
From Verif Require ModelContent ModelCmap.
From Verif Require Import Bytes ModelFloat ModelBuf ModelObject ModelColor ModelSmall ModelPdf ModelTw ModelEnums ModelRoles ModelTwArgs ModelTwFiles ModelTwGraphics ModelChunk SpecLex SpecObj SpecText SpecMeans SpecPdf SpecTyped SpecColor SpecSmall SpecTw SpecEnums SpecRoles SpecTwArgs SpecTwFiles SpecTwGraphics SpecChunk ProofTyped ProofColor ProofTw ProofEnums ProofTwArgs ProofTwFiles ProofTwGraphics.
Import ListNotations.
Local Open Scope Z_scope.

(** ** Artifact *)

Theorem C55_artifact : forall calls, Artifact_ok calls = true -> reads (Artifact_obj calls) (Artifact_reads calls).
Proof. intros cs H. apply good_reads. apply good_Artifact. exact H. Qed.
Example artifact_case : Artifact_ok Artifact_sample = true.
Proof. vm_compute. reflexivity. Qed.

(** ** PropertyList *)

Theorem C55_property_list : forall calls, PropertyList_ok calls = true -> reads (PropertyList_obj calls) (PropertyList_reads calls).
Proof. intros cs H. apply good_reads. apply good_PropertyList. exact H. Qed.
Example property_list_case : PropertyList_ok PropertyList_sample = true.
Proof. vm_compute. reflexivity. Qed.

(** ** Resources *)

Theorem C55_resources : forall calls, Resources_ok calls = true -> reads (Resources_obj calls) (Resources_reads calls).
Proof. intros cs H. apply good_reads. apply good_Resources. exact H. Qed.
Example resources_case : Resources_ok Resources_sample = true.
Proof. vm_compute. reflexivity. Qed.

(** ** SoftMask *)

Theorem C55_soft_mask : forall calls, SoftMask_ok calls = true -> reads (SoftMask_obj calls) (SoftMask_reads calls).
Proof. intros cs H. apply good_reads. apply good_SoftMask. exact H. Qed.
Example soft_mask_case : SoftMask_ok SoftMask_sample = true.
Proof. vm_compute. reflexivity. Qed.

(** ** ExtGraphicsState *)

Theorem C55_ext_graphics_state : forall calls, ExtGraphicsState_ok calls = true -> reads (ExtGraphicsState_obj calls) (ExtGraphicsState_reads calls).
Proof. intros cs H. apply good_reads. apply good_ExtGraphicsState. exact H. Qed.
Example ext_graphics_state_case : ExtGraphicsState_ok ExtGraphicsState_sample = true.
Proof. vm_compute. reflexivity. Qed.

(** ** TilingPattern *)

Theorem C55_tiling_pattern : forall calls es, TilingPattern_ok calls = true -> TilingPattern_dict calls = Some es -> stream_reads es (TilingPattern_reads calls).
Proof. intros cs es H E. apply good_stream_reads. apply good_TilingPattern; assumption. Qed.
Theorem C44_tiling_pattern : forall calls, TilingPattern_dict calls <> None <-> TilingPattern_allowed calls.
Proof. exact TilingPattern_dict_none. Qed.
Example tiling_pattern_case : TilingPattern_ok TilingPattern_sample = true /\ TilingPattern_dict TilingPattern_sample <> None.
Proof. vm_compute. split; [reflexivity|discriminate]. Qed.

(** ** FunctionShading *)

Theorem C55_function_shading : forall calls o, FunctionShading_ok calls = true -> FunctionShading_obj calls = Some o -> reads o (FunctionShading_reads calls).
Proof. intros cs o H E. apply good_reads. apply good_FunctionShading; assumption. Qed.
Theorem C44_function_shading : forall calls, FunctionShading_obj calls <> None <-> FunctionShading_allowed calls.
Proof. exact FunctionShading_obj_none. Qed.
Example function_shading_case : FunctionShading_ok FunctionShading_sample = true /\ FunctionShading_obj FunctionShading_sample <> None.
Proof. vm_compute. split; [reflexivity|discriminate]. Qed.

(** ** ShadingPattern *)

Theorem C55_shading_pattern : forall calls o, ShadingPattern_ok calls = true -> ShadingPattern_obj calls = Some o -> reads o (ShadingPattern_reads calls).
Proof. intros cs o H E. apply good_reads. apply good_ShadingPattern; assumption. Qed.
Theorem C44_shading_pattern : forall calls, ShadingPattern_obj calls <> None <-> ShadingPattern_allowed calls.
Proof. exact ShadingPattern_obj_none. Qed.
Example shading_pattern_case : ShadingPattern_ok ShadingPattern_sample = true /\ ShadingPattern_obj ShadingPattern_sample <> None.
Proof. vm_compute. split; [reflexivity|discriminate]. Qed.

(** ** StreamShading *)

Theorem C55_stream_shading : forall calls es, StreamShading_ok calls = true -> StreamShading_dict calls = Some es -> stream_reads es (StreamShading_reads calls).
Proof. intros cs es H E. apply good_stream_reads. apply good_StreamShading; assumption. Qed.
Theorem C44_stream_shading : forall calls, StreamShading_dict calls <> None <-> StreamShading_allowed calls.
Proof. exact StreamShading_dict_none. Qed.
Example stream_shading_case : StreamShading_ok StreamShading_sample = true /\ StreamShading_dict StreamShading_sample <> None.
Proof. vm_compute. split; [reflexivity|discriminate]. Qed.

(** ** SeparationInfo *)

Theorem C55_separation_info : forall calls o, SeparationInfo_ok calls = true -> SeparationInfo_obj calls = Some o -> reads o (SeparationInfo_reads calls).
Proof. intros cs o H E. apply good_reads. apply good_SeparationInfo; assumption. Qed.
Theorem C44_separation_info : forall calls, SeparationInfo_obj calls <> None <-> SeparationInfo_allowed calls.
Proof. exact SeparationInfo_obj_none. Qed.
Example separation_info_case : SeparationInfo_ok SeparationInfo_sample = true /\ SeparationInfo_obj SeparationInfo_sample <> None.
Proof. vm_compute. split; [reflexivity|discriminate]. Qed.

(** ** OutputIntent *)

Theorem C55_output_intent : forall calls, OutputIntent_ok calls = true -> reads (OutputIntent_obj calls) (OutputIntent_reads calls).
Proof. intros cs H. apply good_reads. apply good_OutputIntent. exact H. Qed.
Example output_intent_case : OutputIntent_ok OutputIntent_sample = true.
Proof. vm_compute. reflexivity. Qed.

(** ** Group *)

Theorem C55_group : forall calls o, Group_ok calls = true -> Group_obj calls = Some o -> reads o (Group_reads calls).
Proof. intros cs o H E. apply good_reads. apply good_Group; assumption. Qed.
Theorem C44_group : forall calls, Group_obj calls <> None <-> Group_allowed calls.
Proof. exact Group_obj_none. Qed.
Example group_case : Group_ok Group_sample = true /\ Group_obj Group_sample <> None.
Proof. vm_compute. split; [reflexivity|discriminate]. Qed.

(** ** Deviations *)

(** Table 57: the [Font] entry is an array of an indirect reference and a size; a name is written, for every
    argument. *)
Theorem C55_font_refuted : forall font size,
  name_ok font = true -> real_ok size = true ->
  reads (ExtGraphicsState_obj [Typed (ExtGraphicsState_font font size)])
        (fun v => forall id, ~ is_dict [(lit "Type", is_name (lit "ExtGState")); (lit "Font", is_array [is_ref id; is_real size])] v).
Proof.
  intros f s H1 H2. eapply reads_weaken.
  - apply C55_ext_graphics_state. unfold ExtGraphicsState_ok. cbn [forallb raw_ok ExtGraphicsState_call_ok]. rewrite H1, H2. reflexivity.
  - intros v (d & -> & F) id (d' & E & F'). injection E as <-.
    inversion F as [|? ? ? ? _ G]; subst. inversion G as [|? x ? ? [_ A] _]; subst.
    inversion F' as [|? ? ? ? _ G']; subst. inversion G' as [|? ? ? ? [_ B] _]; subst.
    cbn [snd] in A, B. destruct A as (vs & E1 & A). destruct B as (ws & E2 & B). rewrite E1 in E2. injection E2 as <-.
    inversion A as [|? ? ? ? A1 _]; subst. inversion B as [|? ? ? ? B1 _]; subst. unfold is_name in A1. unfold is_ref in B1. congruence.
Qed.

Print Assumptions C55_artifact.
Print Assumptions C55_property_list.
Print Assumptions C55_resources.
Print Assumptions C55_soft_mask.
Print Assumptions C55_ext_graphics_state.
Print Assumptions C55_tiling_pattern.
Print Assumptions C44_tiling_pattern.
Print Assumptions C55_function_shading.
Print Assumptions C44_function_shading.
Print Assumptions C55_shading_pattern.
Print Assumptions C44_shading_pattern.
Print Assumptions C55_stream_shading.
Print Assumptions C44_stream_shading.
Print Assumptions C55_separation_info.
Print Assumptions C44_separation_info.
Print Assumptions C55_output_intent.
Print Assumptions C55_group.
Print Assumptions C44_group.
Print Assumptions C55_font_refuted.
