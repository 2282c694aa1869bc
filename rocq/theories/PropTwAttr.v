(** Properties of typed writers: structure elements and attributes. *)

From Coq Require Import ZArith List Bool.
From Verif Require ModelContent ModelCmap.
From Verif Require Import Bytes ModelFloat ModelBuf ModelObject ModelColor ModelSmall ModelPdf ModelTw ModelEnums ModelRoles ModelTwArgs ModelTwFiles ModelTwGraphics ModelTwAnnot ModelTwForms ModelTwAttr ModelChunk SpecLex SpecObj SpecText SpecMeans SpecPdf SpecTyped SpecColor SpecSmall SpecTw SpecEnums SpecRoles SpecTwArgs SpecTwFiles SpecTwGraphics SpecTwAnnot SpecTwForms SpecTwAttr SpecChunk ProofTyped ProofColor ProofTw ProofEnums ProofTwArgs ProofTwFiles ProofTwGraphics ProofTwAnnot ProofTwForms ProofTwAttr.
Import ListNotations.
Local Open Scope Z_scope.

(** ** UserProperty *)

Theorem C54_user_property : forall calls, UserProperty_ok calls = true -> reads (UserProperty_obj calls) (UserProperty_reads calls).
Proof. intros cs H. apply good_reads. apply good_UserProperty. exact H. Qed.
Example user_property_case : UserProperty_ok UserProperty_sample = true.
Proof. vm_compute. reflexivity. Qed.

(** ** LayoutAttributes *)

Theorem C54_layout_attributes : forall calls, LayoutAttributes_ok calls = true -> reads (LayoutAttributes_obj calls) (LayoutAttributes_reads calls).
Proof. intros cs H. apply good_reads. apply good_LayoutAttributes. exact H. Qed.
Example layout_attributes_case : LayoutAttributes_ok LayoutAttributes_sample = true.
Proof. vm_compute. reflexivity. Qed.

(** ** ListAttributes *)

Theorem C54_list_attributes : forall calls, ListAttributes_ok calls = true -> reads (ListAttributes_obj calls) (ListAttributes_reads calls).
Proof. intros cs H. apply good_reads. apply good_ListAttributes. exact H. Qed.
Example list_attributes_case : ListAttributes_ok ListAttributes_sample = true.
Proof. vm_compute. reflexivity. Qed.

(** ** FieldAttributes *)

Theorem C54_field_attributes : forall calls, FieldAttributes_ok calls = true -> reads (FieldAttributes_obj calls) (FieldAttributes_reads calls).
Proof. intros cs H. apply good_reads. apply good_FieldAttributes. exact H. Qed.
Example field_attributes_case : FieldAttributes_ok FieldAttributes_sample = true.
Proof. vm_compute. reflexivity. Qed.

(** ** TableAttributes *)

Theorem C54_table_attributes : forall calls, TableAttributes_ok calls = true -> reads (TableAttributes_obj calls) (TableAttributes_reads calls).
Proof. intros cs H. apply good_reads. apply good_TableAttributes. exact H. Qed.
Example table_attributes_case : TableAttributes_ok TableAttributes_sample = true.
Proof. vm_compute. reflexivity. Qed.

(** ** ArtifactAttributes *)

Theorem C54_artifact_attributes : forall calls, ArtifactAttributes_ok calls = true -> reads (ArtifactAttributes_obj calls) (ArtifactAttributes_reads calls).
Proof. intros cs H. apply good_reads. apply good_ArtifactAttributes. exact H. Qed.
Example artifact_attributes_case : ArtifactAttributes_ok ArtifactAttributes_sample = true.
Proof. vm_compute. reflexivity. Qed.

(** ** FENoteAttributes *)

Theorem C54_f_e_note_attributes : forall calls, FENoteAttributes_ok calls = true -> reads (FENoteAttributes_obj calls) (FENoteAttributes_reads calls).
Proof. intros cs H. apply good_reads. apply good_FENoteAttributes. exact H. Qed.
Example f_e_note_attributes_case : FENoteAttributes_ok FENoteAttributes_sample = true.
Proof. vm_compute. reflexivity. Qed.

(** ** Attributes *)

Theorem C54_attributes : forall calls, Attributes_ok calls = true -> reads (Attributes_obj calls) (Attributes_reads calls).
Proof. intros cs H. apply good_reads. apply good_Attributes. exact H. Qed.
Example attributes_case : Attributes_ok Attributes_sample = true.
Proof. vm_compute. reflexivity. Qed.

(** ** MarkedRef *)

Theorem C54_marked_ref : forall calls, MarkedRef_ok calls = true -> reads (MarkedRef_obj calls) (MarkedRef_reads calls).
Proof. intros cs H. apply good_reads. apply good_MarkedRef. exact H. Qed.
Example marked_ref_case : MarkedRef_ok MarkedRef_sample = true.
Proof. vm_compute. reflexivity. Qed.

(** ** ObjectRef *)

Theorem C54_object_ref : forall calls, ObjectRef_ok calls = true -> reads (ObjectRef_obj calls) (ObjectRef_reads calls).
Proof. intros cs H. apply good_reads. apply good_ObjectRef. exact H. Qed.
Example object_ref_case : ObjectRef_ok ObjectRef_sample = true.
Proof. vm_compute. reflexivity. Qed.

(** ** StructChildren *)

Theorem C54_struct_children : forall calls, StructChildren_ok calls = true -> reads (StructChildren_obj calls) (StructChildren_reads calls).
Proof. intros cs H. apply good_reads. apply good_StructChildren. exact H. Qed.
Example struct_children_case : StructChildren_ok StructChildren_sample = true.
Proof. vm_compute. reflexivity. Qed.

(** ** StructElement *)

Theorem C54_struct_element : forall calls, StructElement_ok calls = true -> reads (StructElement_obj calls) (StructElement_reads calls).
Proof. intros cs H. apply good_reads. apply good_StructElement. exact H. Qed.
Example struct_element_case : StructElement_ok StructElement_sample = true.
Proof. vm_compute. reflexivity. Qed.

(** ** RoleMap *)

Theorem C54_role_map : forall calls, RoleMap_ok calls = true -> reads (RoleMap_obj calls) (RoleMap_reads calls).
Proof. intros cs H. apply good_reads. apply good_RoleMap. exact H. Qed.
Example role_map_case : RoleMap_ok RoleMap_sample = true.
Proof. vm_compute. reflexivity. Qed.

(** ** ClassMap *)

Theorem C54_class_map : forall calls, ClassMap_ok calls = true -> reads (ClassMap_obj calls) (ClassMap_reads calls).
Proof. intros cs H. apply good_reads. apply good_ClassMap. exact H. Qed.
Example class_map_case : ClassMap_ok ClassMap_sample = true.
Proof. vm_compute. reflexivity. Qed.

(** ** NamespaceRoleMap *)

Theorem C54_namespace_role_map : forall calls, NamespaceRoleMap_ok calls = true -> reads (NamespaceRoleMap_obj calls) (NamespaceRoleMap_reads calls).
Proof. intros cs H. apply good_reads. apply good_NamespaceRoleMap. exact H. Qed.
Example namespace_role_map_case : NamespaceRoleMap_ok NamespaceRoleMap_sample = true.
Proof. vm_compute. reflexivity. Qed.

(** ** Namespace *)

Theorem C54_namespace : forall calls, Namespace_ok calls = true -> reads (Namespace_obj calls) (Namespace_reads calls).
Proof. intros cs H. apply good_reads. apply good_Namespace. exact H. Qed.
Example namespace_case : Namespace_ok Namespace_sample = true.
Proof. vm_compute. reflexivity. Qed.

(** ** StructTreeRoot *)

Theorem C54_struct_tree_root : forall calls, StructTreeRoot_ok calls = true -> reads (StructTreeRoot_obj calls) (StructTreeRoot_reads calls).
Proof. intros cs H. apply good_reads. apply good_StructTreeRoot. exact H. Qed.
Example struct_tree_root_case : StructTreeRoot_ok StructTreeRoot_sample = true.
Proof. vm_compute. reflexivity. Qed.

(** ** MarkInfo *)

Theorem C54_mark_info : forall calls, MarkInfo_ok calls = true -> reads (MarkInfo_obj calls) (MarkInfo_reads calls).
Proof. intros cs H. apply good_reads. apply good_MarkInfo. exact H. Qed.
Example mark_info_case : MarkInfo_ok MarkInfo_sample = true.
Proof. vm_compute. reflexivity. Qed.

Print Assumptions C54_user_property.
Print Assumptions C54_layout_attributes.
Print Assumptions C54_list_attributes.
Print Assumptions C54_field_attributes.
Print Assumptions C54_table_attributes.
Print Assumptions C54_artifact_attributes.
Print Assumptions C54_f_e_note_attributes.
Print Assumptions C54_attributes.
Print Assumptions C54_marked_ref.
Print Assumptions C54_object_ref.
Print Assumptions C54_struct_children.
Print Assumptions C54_struct_element.
Print Assumptions C54_role_map.
Print Assumptions C54_class_map.
Print Assumptions C54_namespace_role_map.
Print Assumptions C54_namespace.
Print Assumptions C54_struct_tree_root.
Print Assumptions C54_mark_info.
