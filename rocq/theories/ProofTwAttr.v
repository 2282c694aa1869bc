(** Proofs about typed writers: structure elements and attributes.  Generated by gen/gen_writers.py. *)

From Coq Require Import ZArith List Bool.
From Verif Require ModelContent ModelCmap.
From Verif Require Import Bytes ModelFloat ModelBuf ModelObject ModelColor ModelSmall ModelPdf ModelTw ModelEnums ModelRoles ModelTwArgs ModelTwFiles ModelTwGraphics ModelTwAnnot ModelTwForms ModelTwAttr SpecLex SpecObj SpecText SpecMeans SpecPdf SpecTyped SpecColor SpecSmall SpecTw SpecEnums SpecRoles SpecTwArgs SpecTwFiles SpecTwGraphics SpecTwAnnot SpecTwForms SpecTwAttr ProofTyped ProofColor ProofTw ProofEnums ProofTwArgs ProofTwFiles ProofTwGraphics ProofTwAnnot ProofTwForms.
Import ListNotations.
Local Open Scope Z_scope.

Lemma UserProperty_head_good : good_entries UserProperty_header UserProperty_head.
Proof. unfold UserProperty_header, UserProperty_head. tw_entries. Qed.
Lemma UserProperty_good c : UserProperty_call_ok c = true -> good_entries (UserProperty_entries c) (UserProperty_doc c).
Proof. destruct c; cbn [UserProperty_entries UserProperty_doc UserProperty_call_ok]; tw_call. Qed.
Lemma good_UserProperty cs : UserProperty_ok cs = true -> good (UserProperty_obj cs) (UserProperty_reads cs).
Proof. intro H. eapply good_writer; [exact UserProperty_head_good|exact UserProperty_good|exact H]. Qed.
#[export] Hint Resolve good_UserProperty : tw.
#[export] Hint Resolve UserProperty_head_good UserProperty_good : twh.
#[export] Hint Extern 1 (good (arr_of UserProperty_obj _) _) => apply (good_arr_of UserProperty_obj UserProperty_reads UserProperty_ok _ good_UserProperty) : tw.
#[export] Hint Extern 1 (good (dict_of UserProperty_obj _) _) => apply (good_dict_of UserProperty_obj UserProperty_reads UserProperty_ok _ good_UserProperty) : tw.

Lemma LayoutAttributes_head_good : good_entries LayoutAttributes_header LayoutAttributes_head.
Proof. unfold LayoutAttributes_header, LayoutAttributes_head. tw_entries. Qed.
Lemma LayoutAttributes_good c : LayoutAttributes_call_ok c = true -> good_entries (LayoutAttributes_entries c) (LayoutAttributes_doc c).
Proof. destruct c; cbn [LayoutAttributes_entries LayoutAttributes_doc LayoutAttributes_call_ok]; tw_call. Qed.
Lemma good_LayoutAttributes cs : LayoutAttributes_ok cs = true -> good (LayoutAttributes_obj cs) (LayoutAttributes_reads cs).
Proof. intro H. eapply good_writer; [exact LayoutAttributes_head_good|exact LayoutAttributes_good|exact H]. Qed.
#[export] Hint Resolve good_LayoutAttributes : tw.
#[export] Hint Resolve LayoutAttributes_head_good LayoutAttributes_good : twh.
#[export] Hint Extern 1 (good (arr_of LayoutAttributes_obj _) _) => apply (good_arr_of LayoutAttributes_obj LayoutAttributes_reads LayoutAttributes_ok _ good_LayoutAttributes) : tw.
#[export] Hint Extern 1 (good (dict_of LayoutAttributes_obj _) _) => apply (good_dict_of LayoutAttributes_obj LayoutAttributes_reads LayoutAttributes_ok _ good_LayoutAttributes) : tw.

Lemma ListAttributes_head_good : good_entries ListAttributes_header ListAttributes_head.
Proof. unfold ListAttributes_header, ListAttributes_head. tw_entries. Qed.
Lemma ListAttributes_good c : ListAttributes_call_ok c = true -> good_entries (ListAttributes_entries c) (ListAttributes_doc c).
Proof. destruct c; cbn [ListAttributes_entries ListAttributes_doc ListAttributes_call_ok]; tw_call. Qed.
Lemma good_ListAttributes cs : ListAttributes_ok cs = true -> good (ListAttributes_obj cs) (ListAttributes_reads cs).
Proof. intro H. eapply good_writer; [exact ListAttributes_head_good|exact ListAttributes_good|exact H]. Qed.
#[export] Hint Resolve good_ListAttributes : tw.
#[export] Hint Resolve ListAttributes_head_good ListAttributes_good : twh.
#[export] Hint Extern 1 (good (arr_of ListAttributes_obj _) _) => apply (good_arr_of ListAttributes_obj ListAttributes_reads ListAttributes_ok _ good_ListAttributes) : tw.
#[export] Hint Extern 1 (good (dict_of ListAttributes_obj _) _) => apply (good_dict_of ListAttributes_obj ListAttributes_reads ListAttributes_ok _ good_ListAttributes) : tw.

Lemma FieldAttributes_head_good : good_entries FieldAttributes_header FieldAttributes_head.
Proof. unfold FieldAttributes_header, FieldAttributes_head. tw_entries. Qed.
Lemma FieldAttributes_good c : FieldAttributes_call_ok c = true -> good_entries (FieldAttributes_entries c) (FieldAttributes_doc c).
Proof. destruct c; cbn [FieldAttributes_entries FieldAttributes_doc FieldAttributes_call_ok]; tw_call. Qed.
Lemma good_FieldAttributes cs : FieldAttributes_ok cs = true -> good (FieldAttributes_obj cs) (FieldAttributes_reads cs).
Proof. intro H. eapply good_writer; [exact FieldAttributes_head_good|exact FieldAttributes_good|exact H]. Qed.
#[export] Hint Resolve good_FieldAttributes : tw.
#[export] Hint Resolve FieldAttributes_head_good FieldAttributes_good : twh.
#[export] Hint Extern 1 (good (arr_of FieldAttributes_obj _) _) => apply (good_arr_of FieldAttributes_obj FieldAttributes_reads FieldAttributes_ok _ good_FieldAttributes) : tw.
#[export] Hint Extern 1 (good (dict_of FieldAttributes_obj _) _) => apply (good_dict_of FieldAttributes_obj FieldAttributes_reads FieldAttributes_ok _ good_FieldAttributes) : tw.

Lemma TableAttributes_head_good : good_entries TableAttributes_header TableAttributes_head.
Proof. unfold TableAttributes_header, TableAttributes_head. tw_entries. Qed.
Lemma TableAttributes_good c : TableAttributes_call_ok c = true -> good_entries (TableAttributes_entries c) (TableAttributes_doc c).
Proof. destruct c; cbn [TableAttributes_entries TableAttributes_doc TableAttributes_call_ok]; tw_call. Qed.
Lemma good_TableAttributes cs : TableAttributes_ok cs = true -> good (TableAttributes_obj cs) (TableAttributes_reads cs).
Proof. intro H. eapply good_writer; [exact TableAttributes_head_good|exact TableAttributes_good|exact H]. Qed.
#[export] Hint Resolve good_TableAttributes : tw.
#[export] Hint Resolve TableAttributes_head_good TableAttributes_good : twh.
#[export] Hint Extern 1 (good (arr_of TableAttributes_obj _) _) => apply (good_arr_of TableAttributes_obj TableAttributes_reads TableAttributes_ok _ good_TableAttributes) : tw.
#[export] Hint Extern 1 (good (dict_of TableAttributes_obj _) _) => apply (good_dict_of TableAttributes_obj TableAttributes_reads TableAttributes_ok _ good_TableAttributes) : tw.

Lemma ArtifactAttributes_head_good : good_entries ArtifactAttributes_header ArtifactAttributes_head.
Proof. unfold ArtifactAttributes_header, ArtifactAttributes_head. tw_entries. Qed.
Lemma ArtifactAttributes_good c : ArtifactAttributes_call_ok c = true -> good_entries (ArtifactAttributes_entries c) (ArtifactAttributes_doc c).
Proof. destruct c; cbn [ArtifactAttributes_entries ArtifactAttributes_doc ArtifactAttributes_call_ok]; tw_call. Qed.
Lemma good_ArtifactAttributes cs : ArtifactAttributes_ok cs = true -> good (ArtifactAttributes_obj cs) (ArtifactAttributes_reads cs).
Proof. intro H. eapply good_writer; [exact ArtifactAttributes_head_good|exact ArtifactAttributes_good|exact H]. Qed.
#[export] Hint Resolve good_ArtifactAttributes : tw.
#[export] Hint Resolve ArtifactAttributes_head_good ArtifactAttributes_good : twh.
#[export] Hint Extern 1 (good (arr_of ArtifactAttributes_obj _) _) => apply (good_arr_of ArtifactAttributes_obj ArtifactAttributes_reads ArtifactAttributes_ok _ good_ArtifactAttributes) : tw.
#[export] Hint Extern 1 (good (dict_of ArtifactAttributes_obj _) _) => apply (good_dict_of ArtifactAttributes_obj ArtifactAttributes_reads ArtifactAttributes_ok _ good_ArtifactAttributes) : tw.

Lemma FENoteAttributes_head_good : good_entries FENoteAttributes_header FENoteAttributes_head.
Proof. unfold FENoteAttributes_header, FENoteAttributes_head. tw_entries. Qed.
Lemma FENoteAttributes_good c : FENoteAttributes_call_ok c = true -> good_entries (FENoteAttributes_entries c) (FENoteAttributes_doc c).
Proof. destruct c; cbn [FENoteAttributes_entries FENoteAttributes_doc FENoteAttributes_call_ok]; tw_call. Qed.
Lemma good_FENoteAttributes cs : FENoteAttributes_ok cs = true -> good (FENoteAttributes_obj cs) (FENoteAttributes_reads cs).
Proof. intro H. eapply good_writer; [exact FENoteAttributes_head_good|exact FENoteAttributes_good|exact H]. Qed.
#[export] Hint Resolve good_FENoteAttributes : tw.
#[export] Hint Resolve FENoteAttributes_head_good FENoteAttributes_good : twh.
#[export] Hint Extern 1 (good (arr_of FENoteAttributes_obj _) _) => apply (good_arr_of FENoteAttributes_obj FENoteAttributes_reads FENoteAttributes_ok _ good_FENoteAttributes) : tw.
#[export] Hint Extern 1 (good (dict_of FENoteAttributes_obj _) _) => apply (good_dict_of FENoteAttributes_obj FENoteAttributes_reads FENoteAttributes_ok _ good_FENoteAttributes) : tw.

Lemma Attributes_head_good : good_entries Attributes_header Attributes_head.
Proof. unfold Attributes_header, Attributes_head. tw_entries. Qed.
Lemma Attributes_good c : Attributes_call_ok c = true -> good_entries (Attributes_entries c) (Attributes_doc c).
Proof. destruct c; cbn [Attributes_entries Attributes_doc Attributes_call_ok]; tw_call. Qed.
Lemma good_Attributes cs : Attributes_ok cs = true -> good (Attributes_obj cs) (Attributes_reads cs).
Proof. intro H. eapply good_writer; [exact Attributes_head_good|exact Attributes_good|exact H]. Qed.
#[export] Hint Resolve good_Attributes : tw.
#[export] Hint Resolve Attributes_head_good Attributes_good : twh.
#[export] Hint Extern 1 (good (arr_of Attributes_obj _) _) => apply (good_arr_of Attributes_obj Attributes_reads Attributes_ok _ good_Attributes) : tw.
#[export] Hint Extern 1 (good (dict_of Attributes_obj _) _) => apply (good_dict_of Attributes_obj Attributes_reads Attributes_ok _ good_Attributes) : tw.

Lemma MarkedRef_head_good : good_entries MarkedRef_header MarkedRef_head.
Proof. unfold MarkedRef_header, MarkedRef_head. tw_entries. Qed.
Lemma MarkedRef_good c : MarkedRef_call_ok c = true -> good_entries (MarkedRef_entries c) (MarkedRef_doc c).
Proof. destruct c; cbn [MarkedRef_entries MarkedRef_doc MarkedRef_call_ok]; tw_call. Qed.
Lemma good_MarkedRef cs : MarkedRef_ok cs = true -> good (MarkedRef_obj cs) (MarkedRef_reads cs).
Proof. intro H. eapply good_writer; [exact MarkedRef_head_good|exact MarkedRef_good|exact H]. Qed.
#[export] Hint Resolve good_MarkedRef : tw.
#[export] Hint Resolve MarkedRef_head_good MarkedRef_good : twh.
#[export] Hint Extern 1 (good (arr_of MarkedRef_obj _) _) => apply (good_arr_of MarkedRef_obj MarkedRef_reads MarkedRef_ok _ good_MarkedRef) : tw.
#[export] Hint Extern 1 (good (dict_of MarkedRef_obj _) _) => apply (good_dict_of MarkedRef_obj MarkedRef_reads MarkedRef_ok _ good_MarkedRef) : tw.

Lemma ObjectRef_head_good : good_entries ObjectRef_header ObjectRef_head.
Proof. unfold ObjectRef_header, ObjectRef_head. tw_entries. Qed.
Lemma ObjectRef_good c : ObjectRef_call_ok c = true -> good_entries (ObjectRef_entries c) (ObjectRef_doc c).
Proof. destruct c; cbn [ObjectRef_entries ObjectRef_doc ObjectRef_call_ok]; tw_call. Qed.
Lemma good_ObjectRef cs : ObjectRef_ok cs = true -> good (ObjectRef_obj cs) (ObjectRef_reads cs).
Proof. intro H. eapply good_writer; [exact ObjectRef_head_good|exact ObjectRef_good|exact H]. Qed.
#[export] Hint Resolve good_ObjectRef : tw.
#[export] Hint Resolve ObjectRef_head_good ObjectRef_good : twh.
#[export] Hint Extern 1 (good (arr_of ObjectRef_obj _) _) => apply (good_arr_of ObjectRef_obj ObjectRef_reads ObjectRef_ok _ good_ObjectRef) : tw.
#[export] Hint Extern 1 (good (dict_of ObjectRef_obj _) _) => apply (good_dict_of ObjectRef_obj ObjectRef_reads ObjectRef_ok _ good_ObjectRef) : tw.

Lemma StructChildren_good c : StructChildren_call_ok c = true -> Forall2 good (StructChildren_items c) (StructChildren_doc c).
Proof. destruct c; cbn [StructChildren_items StructChildren_doc StructChildren_call_ok]; tw_items_call. Qed.
Lemma good_StructChildren cs : StructChildren_ok cs = true -> good (StructChildren_obj cs) (StructChildren_reads cs).
Proof. intro H. eapply good_array_writer; [exact StructChildren_good|exact H]. Qed.
#[export] Hint Resolve good_StructChildren : tw.

#[export] Hint Extern 1 (good (arr_of StructChildren_obj _) _) => apply (good_arr_of StructChildren_obj StructChildren_reads StructChildren_ok _ good_StructChildren) : tw.
#[export] Hint Extern 1 (good (dict_of StructChildren_obj _) _) => apply (good_dict_of StructChildren_obj StructChildren_reads StructChildren_ok _ good_StructChildren) : tw.

Lemma StructElement_head_good : good_entries StructElement_header StructElement_head.
Proof. unfold StructElement_header, StructElement_head. tw_entries. Qed.
Lemma StructElement_good c : StructElement_call_ok c = true -> good_entries (StructElement_entries c) (StructElement_doc c).
Proof. destruct c; cbn [StructElement_entries StructElement_doc StructElement_call_ok]; tw_call. Qed.
Lemma good_StructElement cs : StructElement_ok cs = true -> good (StructElement_obj cs) (StructElement_reads cs).
Proof. intro H. eapply good_writer; [exact StructElement_head_good|exact StructElement_good|exact H]. Qed.
#[export] Hint Resolve good_StructElement : tw.
#[export] Hint Resolve StructElement_head_good StructElement_good : twh.
#[export] Hint Extern 1 (good (arr_of StructElement_obj _) _) => apply (good_arr_of StructElement_obj StructElement_reads StructElement_ok _ good_StructElement) : tw.
#[export] Hint Extern 1 (good (dict_of StructElement_obj _) _) => apply (good_dict_of StructElement_obj StructElement_reads StructElement_ok _ good_StructElement) : tw.

Lemma RoleMap_head_good : good_entries RoleMap_header RoleMap_head.
Proof. unfold RoleMap_header, RoleMap_head. tw_entries. Qed.
Lemma RoleMap_good c : RoleMap_call_ok c = true -> good_entries (RoleMap_entries c) (RoleMap_doc c).
Proof. destruct c; cbn [RoleMap_entries RoleMap_doc RoleMap_call_ok]; tw_call. Qed.
Lemma good_RoleMap cs : RoleMap_ok cs = true -> good (RoleMap_obj cs) (RoleMap_reads cs).
Proof. intro H. eapply good_writer; [exact RoleMap_head_good|exact RoleMap_good|exact H]. Qed.
#[export] Hint Resolve good_RoleMap : tw.
#[export] Hint Resolve RoleMap_head_good RoleMap_good : twh.
#[export] Hint Extern 1 (good (arr_of RoleMap_obj _) _) => apply (good_arr_of RoleMap_obj RoleMap_reads RoleMap_ok _ good_RoleMap) : tw.
#[export] Hint Extern 1 (good (dict_of RoleMap_obj _) _) => apply (good_dict_of RoleMap_obj RoleMap_reads RoleMap_ok _ good_RoleMap) : tw.

Lemma ClassMap_head_good : good_entries ClassMap_header ClassMap_head.
Proof. unfold ClassMap_header, ClassMap_head. tw_entries. Qed.
Lemma ClassMap_good c : ClassMap_call_ok c = true -> good_entries (ClassMap_entries c) (ClassMap_doc c).
Proof. destruct c; cbn [ClassMap_entries ClassMap_doc ClassMap_call_ok]; tw_call. Qed.
Lemma good_ClassMap cs : ClassMap_ok cs = true -> good (ClassMap_obj cs) (ClassMap_reads cs).
Proof. intro H. eapply good_writer; [exact ClassMap_head_good|exact ClassMap_good|exact H]. Qed.
#[export] Hint Resolve good_ClassMap : tw.
#[export] Hint Resolve ClassMap_head_good ClassMap_good : twh.
#[export] Hint Extern 1 (good (arr_of ClassMap_obj _) _) => apply (good_arr_of ClassMap_obj ClassMap_reads ClassMap_ok _ good_ClassMap) : tw.
#[export] Hint Extern 1 (good (dict_of ClassMap_obj _) _) => apply (good_dict_of ClassMap_obj ClassMap_reads ClassMap_ok _ good_ClassMap) : tw.

Lemma NamespaceRoleMap_head_good : good_entries NamespaceRoleMap_header NamespaceRoleMap_head.
Proof. unfold NamespaceRoleMap_header, NamespaceRoleMap_head. tw_entries. Qed.
Lemma NamespaceRoleMap_good c : NamespaceRoleMap_call_ok c = true -> good_entries (NamespaceRoleMap_entries c) (NamespaceRoleMap_doc c).
Proof. destruct c; cbn [NamespaceRoleMap_entries NamespaceRoleMap_doc NamespaceRoleMap_call_ok]; tw_call. Qed.
Lemma good_NamespaceRoleMap cs : NamespaceRoleMap_ok cs = true -> good (NamespaceRoleMap_obj cs) (NamespaceRoleMap_reads cs).
Proof. intro H. eapply good_writer; [exact NamespaceRoleMap_head_good|exact NamespaceRoleMap_good|exact H]. Qed.
#[export] Hint Resolve good_NamespaceRoleMap : tw.
#[export] Hint Resolve NamespaceRoleMap_head_good NamespaceRoleMap_good : twh.
#[export] Hint Extern 1 (good (arr_of NamespaceRoleMap_obj _) _) => apply (good_arr_of NamespaceRoleMap_obj NamespaceRoleMap_reads NamespaceRoleMap_ok _ good_NamespaceRoleMap) : tw.
#[export] Hint Extern 1 (good (dict_of NamespaceRoleMap_obj _) _) => apply (good_dict_of NamespaceRoleMap_obj NamespaceRoleMap_reads NamespaceRoleMap_ok _ good_NamespaceRoleMap) : tw.

Lemma Namespace_head_good : good_entries Namespace_header Namespace_head.
Proof. unfold Namespace_header, Namespace_head. tw_entries. Qed.
Lemma Namespace_good c : Namespace_call_ok c = true -> good_entries (Namespace_entries c) (Namespace_doc c).
Proof. destruct c; cbn [Namespace_entries Namespace_doc Namespace_call_ok]; tw_call. Qed.
Lemma good_Namespace cs : Namespace_ok cs = true -> good (Namespace_obj cs) (Namespace_reads cs).
Proof. intro H. eapply good_writer; [exact Namespace_head_good|exact Namespace_good|exact H]. Qed.
#[export] Hint Resolve good_Namespace : tw.
#[export] Hint Resolve Namespace_head_good Namespace_good : twh.
#[export] Hint Extern 1 (good (arr_of Namespace_obj _) _) => apply (good_arr_of Namespace_obj Namespace_reads Namespace_ok _ good_Namespace) : tw.
#[export] Hint Extern 1 (good (dict_of Namespace_obj _) _) => apply (good_dict_of Namespace_obj Namespace_reads Namespace_ok _ good_Namespace) : tw.

Lemma StructTreeRoot_head_good : good_entries StructTreeRoot_header StructTreeRoot_head.
Proof. unfold StructTreeRoot_header, StructTreeRoot_head. tw_entries. Qed.
Lemma StructTreeRoot_good c : StructTreeRoot_call_ok c = true -> good_entries (StructTreeRoot_entries c) (StructTreeRoot_doc c).
Proof. destruct c; cbn [StructTreeRoot_entries StructTreeRoot_doc StructTreeRoot_call_ok]; tw_call. Qed.
Lemma good_StructTreeRoot cs : StructTreeRoot_ok cs = true -> good (StructTreeRoot_obj cs) (StructTreeRoot_reads cs).
Proof. intro H. eapply good_writer; [exact StructTreeRoot_head_good|exact StructTreeRoot_good|exact H]. Qed.
#[export] Hint Resolve good_StructTreeRoot : tw.
#[export] Hint Resolve StructTreeRoot_head_good StructTreeRoot_good : twh.
#[export] Hint Extern 1 (good (arr_of StructTreeRoot_obj _) _) => apply (good_arr_of StructTreeRoot_obj StructTreeRoot_reads StructTreeRoot_ok _ good_StructTreeRoot) : tw.
#[export] Hint Extern 1 (good (dict_of StructTreeRoot_obj _) _) => apply (good_dict_of StructTreeRoot_obj StructTreeRoot_reads StructTreeRoot_ok _ good_StructTreeRoot) : tw.

Lemma MarkInfo_head_good : good_entries MarkInfo_header MarkInfo_head.
Proof. unfold MarkInfo_header, MarkInfo_head. tw_entries. Qed.
Lemma MarkInfo_good c : MarkInfo_call_ok c = true -> good_entries (MarkInfo_entries c) (MarkInfo_doc c).
Proof. destruct c; cbn [MarkInfo_entries MarkInfo_doc MarkInfo_call_ok]; tw_call. Qed.
Lemma good_MarkInfo cs : MarkInfo_ok cs = true -> good (MarkInfo_obj cs) (MarkInfo_reads cs).
Proof. intro H. eapply good_writer; [exact MarkInfo_head_good|exact MarkInfo_good|exact H]. Qed.
#[export] Hint Resolve good_MarkInfo : tw.
#[export] Hint Resolve MarkInfo_head_good MarkInfo_good : twh.
#[export] Hint Extern 1 (good (arr_of MarkInfo_obj _) _) => apply (good_arr_of MarkInfo_obj MarkInfo_reads MarkInfo_ok _ good_MarkInfo) : tw.
#[export] Hint Extern 1 (good (dict_of MarkInfo_obj _) _) => apply (good_dict_of MarkInfo_obj MarkInfo_reads MarkInfo_ok _ good_MarkInfo) : tw.
