(** Proofs about typed writers: annotations, actions, renditions and destinations.  Generated by gen/gen_writers.py. *)

From Coq Require Import ZArith List Bool.
From Verif Require ModelContent ModelCmap.
From Verif Require Import Bytes ModelFloat ModelBuf ModelObject ModelColor ModelSmall ModelPdf ModelTw ModelEnums ModelRoles ModelTwArgs ModelTwFiles ModelTwGraphics ModelTwAnnot SpecLex SpecObj SpecText SpecMeans SpecPdf SpecTyped SpecColor SpecSmall SpecTw SpecEnums SpecRoles SpecTwArgs SpecTwFiles SpecTwGraphics SpecTwAnnot ProofTyped ProofColor ProofTw ProofEnums ProofTwArgs ProofTwFiles ProofTwGraphics.
Import ListNotations.
Local Open Scope Z_scope.

Lemma Destination_good c : Destination_call_ok c = true -> Forall2 good (Destination_items c) (Destination_doc c).
Proof. destruct c; cbn [Destination_items Destination_doc Destination_call_ok]; tw_items_call. Qed.
Lemma good_Destination cs : Destination_ok cs = true -> good (Destination_obj cs) (Destination_reads cs).
Proof. intro H. eapply good_array_writer; [exact Destination_good|exact H]. Qed.
#[export] Hint Resolve good_Destination : tw.

#[export] Hint Extern 1 (good (arr_of Destination_obj _) _) => apply (good_arr_of Destination_obj Destination_reads Destination_ok _ good_Destination) : tw.
#[export] Hint Extern 1 (good (dict_of Destination_obj _) _) => apply (good_dict_of Destination_obj Destination_reads Destination_ok _ good_Destination) : tw.

Lemma Fields_good c : Fields_call_ok c = true -> Forall2 good (Fields_items c) (Fields_doc c).
Proof. destruct c; cbn [Fields_items Fields_doc Fields_call_ok]; tw_items_call. Qed.
Lemma good_Fields cs : Fields_ok cs = true -> good (Fields_obj cs) (Fields_reads cs).
Proof. intro H. eapply good_array_writer; [exact Fields_good|exact H]. Qed.
#[export] Hint Resolve good_Fields : tw.

#[export] Hint Extern 1 (good (arr_of Fields_obj _) _) => apply (good_arr_of Fields_obj Fields_reads Fields_ok _ good_Fields) : tw.
#[export] Hint Extern 1 (good (dict_of Fields_obj _) _) => apply (good_dict_of Fields_obj Fields_reads Fields_ok _ good_Fields) : tw.

Lemma MediaPermissions_head_good : good_entries MediaPermissions_header MediaPermissions_head.
Proof. unfold MediaPermissions_header, MediaPermissions_head. tw_entries. Qed.
Lemma MediaPermissions_good c : MediaPermissions_call_ok c = true -> good_entries (MediaPermissions_entries c) (MediaPermissions_doc c).
Proof. destruct c; cbn [MediaPermissions_entries MediaPermissions_doc MediaPermissions_call_ok]; tw_call. Qed.
Lemma good_MediaPermissions cs : MediaPermissions_ok cs = true -> good (MediaPermissions_obj cs) (MediaPermissions_reads cs).
Proof. intro H. eapply good_writer; [exact MediaPermissions_head_good|exact MediaPermissions_good|exact H]. Qed.
#[export] Hint Resolve good_MediaPermissions : tw.
#[export] Hint Resolve MediaPermissions_head_good MediaPermissions_good : twh.
#[export] Hint Extern 1 (good (arr_of MediaPermissions_obj _) _) => apply (good_arr_of MediaPermissions_obj MediaPermissions_reads MediaPermissions_ok _ good_MediaPermissions) : tw.
#[export] Hint Extern 1 (good (dict_of MediaPermissions_obj _) _) => apply (good_dict_of MediaPermissions_obj MediaPermissions_reads MediaPermissions_ok _ good_MediaPermissions) : tw.

Lemma MediaPlayParams_head_good : good_entries MediaPlayParams_header MediaPlayParams_head.
Proof. unfold MediaPlayParams_header, MediaPlayParams_head. tw_entries. Qed.
Lemma MediaPlayParams_good c : MediaPlayParams_call_ok c = true -> good_entries (MediaPlayParams_entries c) (MediaPlayParams_doc c).
Proof. destruct c; cbn [MediaPlayParams_entries MediaPlayParams_doc MediaPlayParams_call_ok]; tw_call. Qed.
Lemma good_MediaPlayParams cs : MediaPlayParams_ok cs = true -> good (MediaPlayParams_obj cs) (MediaPlayParams_reads cs).
Proof. intro H. eapply good_writer; [exact MediaPlayParams_head_good|exact MediaPlayParams_good|exact H]. Qed.
#[export] Hint Resolve good_MediaPlayParams : tw.
#[export] Hint Resolve MediaPlayParams_head_good MediaPlayParams_good : twh.
#[export] Hint Extern 1 (good (arr_of MediaPlayParams_obj _) _) => apply (good_arr_of MediaPlayParams_obj MediaPlayParams_reads MediaPlayParams_ok _ good_MediaPlayParams) : tw.
#[export] Hint Extern 1 (good (dict_of MediaPlayParams_obj _) _) => apply (good_dict_of MediaPlayParams_obj MediaPlayParams_reads MediaPlayParams_ok _ good_MediaPlayParams) : tw.

Lemma MediaClip_head_good : good_entries MediaClip_header MediaClip_head.
Proof. unfold MediaClip_header, MediaClip_head. tw_entries. Qed.
Lemma MediaClip_good c : MediaClip_call_ok c = true -> good_entries (MediaClip_entries c) (MediaClip_doc c).
Proof. destruct c; cbn [MediaClip_entries MediaClip_doc MediaClip_call_ok]; tw_call. Qed.
Lemma good_MediaClip cs : MediaClip_ok cs = true -> good (MediaClip_obj cs) (MediaClip_reads cs).
Proof. intro H. eapply good_writer; [exact MediaClip_head_good|exact MediaClip_good|exact H]. Qed.
#[export] Hint Resolve good_MediaClip : tw.
#[export] Hint Resolve MediaClip_head_good MediaClip_good : twh.
#[export] Hint Extern 1 (good (arr_of MediaClip_obj _) _) => apply (good_arr_of MediaClip_obj MediaClip_reads MediaClip_ok _ good_MediaClip) : tw.
#[export] Hint Extern 1 (good (dict_of MediaClip_obj _) _) => apply (good_dict_of MediaClip_obj MediaClip_reads MediaClip_ok _ good_MediaClip) : tw.

Lemma Rendition_head_good : good_entries Rendition_header Rendition_head.
Proof. unfold Rendition_header, Rendition_head. tw_entries. Qed.
Lemma Rendition_good c : Rendition_call_ok c = true -> good_entries (Rendition_entries c) (Rendition_doc c).
Proof. destruct c; cbn [Rendition_entries Rendition_doc Rendition_call_ok]; tw_call. Qed.
Lemma good_Rendition cs : Rendition_ok cs = true -> good (Rendition_obj cs) (Rendition_reads cs).
Proof. intro H. eapply good_writer; [exact Rendition_head_good|exact Rendition_good|exact H]. Qed.
#[export] Hint Resolve good_Rendition : tw.
#[export] Hint Resolve Rendition_head_good Rendition_good : twh.
#[export] Hint Extern 1 (good (arr_of Rendition_obj _) _) => apply (good_arr_of Rendition_obj Rendition_reads Rendition_ok _ good_Rendition) : tw.
#[export] Hint Extern 1 (good (dict_of Rendition_obj _) _) => apply (good_dict_of Rendition_obj Rendition_reads Rendition_ok _ good_Rendition) : tw.

Lemma Action_head_good : good_entries Action_header Action_head.
Proof. unfold Action_header, Action_head. tw_entries. Qed.
Lemma Action_good c : Action_call_ok c = true -> good_entries (Action_entries c) (Action_doc c).
Proof. destruct c; cbn [Action_entries Action_doc Action_call_ok]; tw_call. Qed.
Lemma good_Action cs : Action_ok cs = true -> good (Action_obj cs) (Action_reads cs).
Proof. intro H. eapply good_writer; [exact Action_head_good|exact Action_good|exact H]. Qed.
#[export] Hint Resolve good_Action : tw.
#[export] Hint Resolve Action_head_good Action_good : twh.
#[export] Hint Extern 1 (good (arr_of Action_obj _) _) => apply (good_arr_of Action_obj Action_reads Action_ok _ good_Action) : tw.
#[export] Hint Extern 1 (good (dict_of Action_obj _) _) => apply (good_dict_of Action_obj Action_reads Action_ok _ good_Action) : tw.

Lemma AdditionalActions_head_good : good_entries AdditionalActions_header AdditionalActions_head.
Proof. unfold AdditionalActions_header, AdditionalActions_head. tw_entries. Qed.
Lemma AdditionalActions_good c : AdditionalActions_call_ok c = true -> good_entries (AdditionalActions_entries c) (AdditionalActions_doc c).
Proof. destruct c; cbn [AdditionalActions_entries AdditionalActions_doc AdditionalActions_call_ok]; tw_call. Qed.
Lemma good_AdditionalActions cs : AdditionalActions_ok cs = true -> good (AdditionalActions_obj cs) (AdditionalActions_reads cs).
Proof. intro H. eapply good_writer; [exact AdditionalActions_head_good|exact AdditionalActions_good|exact H]. Qed.
#[export] Hint Resolve good_AdditionalActions : tw.
#[export] Hint Resolve AdditionalActions_head_good AdditionalActions_good : twh.
#[export] Hint Extern 1 (good (arr_of AdditionalActions_obj _) _) => apply (good_arr_of AdditionalActions_obj AdditionalActions_reads AdditionalActions_ok _ good_AdditionalActions) : tw.
#[export] Hint Extern 1 (good (dict_of AdditionalActions_obj _) _) => apply (good_dict_of AdditionalActions_obj AdditionalActions_reads AdditionalActions_ok _ good_AdditionalActions) : tw.

Lemma Appearance_head_good : good_entries Appearance_header Appearance_head.
Proof. unfold Appearance_header, Appearance_head. tw_entries. Qed.
Lemma Appearance_good c : Appearance_call_ok c = true -> good_entries (Appearance_entries c) (Appearance_doc c).
Proof. destruct c; cbn [Appearance_entries Appearance_doc Appearance_call_ok]; tw_call. Qed.
Lemma good_Appearance cs : Appearance_ok cs = true -> good (Appearance_obj cs) (Appearance_reads cs).
Proof. intro H. eapply good_writer; [exact Appearance_head_good|exact Appearance_good|exact H]. Qed.
#[export] Hint Resolve good_Appearance : tw.
#[export] Hint Resolve Appearance_head_good Appearance_good : twh.
#[export] Hint Extern 1 (good (arr_of Appearance_obj _) _) => apply (good_arr_of Appearance_obj Appearance_reads Appearance_ok _ good_Appearance) : tw.
#[export] Hint Extern 1 (good (dict_of Appearance_obj _) _) => apply (good_dict_of Appearance_obj Appearance_reads Appearance_ok _ good_Appearance) : tw.

Lemma IconFit_head_good : good_entries IconFit_header IconFit_head.
Proof. unfold IconFit_header, IconFit_head. tw_entries. Qed.
Lemma IconFit_good c : IconFit_call_ok c = true -> good_entries (IconFit_entries c) (IconFit_doc c).
Proof. destruct c; cbn [IconFit_entries IconFit_doc IconFit_call_ok]; tw_call. Qed.
Lemma good_IconFit cs : IconFit_ok cs = true -> good (IconFit_obj cs) (IconFit_reads cs).
Proof. intro H. eapply good_writer; [exact IconFit_head_good|exact IconFit_good|exact H]. Qed.
#[export] Hint Resolve good_IconFit : tw.
#[export] Hint Resolve IconFit_head_good IconFit_good : twh.
#[export] Hint Extern 1 (good (arr_of IconFit_obj _) _) => apply (good_arr_of IconFit_obj IconFit_reads IconFit_ok _ good_IconFit) : tw.
#[export] Hint Extern 1 (good (dict_of IconFit_obj _) _) => apply (good_dict_of IconFit_obj IconFit_reads IconFit_ok _ good_IconFit) : tw.

Lemma AppearanceCharacteristics_head_good : good_entries AppearanceCharacteristics_header AppearanceCharacteristics_head.
Proof. unfold AppearanceCharacteristics_header, AppearanceCharacteristics_head. tw_entries. Qed.
Lemma AppearanceCharacteristics_good c : AppearanceCharacteristics_call_ok c = true -> good_entries (AppearanceCharacteristics_entries c) (AppearanceCharacteristics_doc c).
Proof. destruct c; cbn [AppearanceCharacteristics_entries AppearanceCharacteristics_doc AppearanceCharacteristics_call_ok]; tw_call. Qed.
Lemma good_AppearanceCharacteristics cs : AppearanceCharacteristics_ok cs = true -> good (AppearanceCharacteristics_obj cs) (AppearanceCharacteristics_reads cs).
Proof. intro H. eapply good_writer; [exact AppearanceCharacteristics_head_good|exact AppearanceCharacteristics_good|exact H]. Qed.
#[export] Hint Resolve good_AppearanceCharacteristics : tw.
#[export] Hint Resolve AppearanceCharacteristics_head_good AppearanceCharacteristics_good : twh.
#[export] Hint Extern 1 (good (arr_of AppearanceCharacteristics_obj _) _) => apply (good_arr_of AppearanceCharacteristics_obj AppearanceCharacteristics_reads AppearanceCharacteristics_ok _ good_AppearanceCharacteristics) : tw.
#[export] Hint Extern 1 (good (dict_of AppearanceCharacteristics_obj _) _) => apply (good_dict_of AppearanceCharacteristics_obj AppearanceCharacteristics_reads AppearanceCharacteristics_ok _ good_AppearanceCharacteristics) : tw.

Lemma BorderStyle_head_good : good_entries BorderStyle_header BorderStyle_head.
Proof. unfold BorderStyle_header, BorderStyle_head. tw_entries. Qed.
Lemma BorderStyle_good c : BorderStyle_call_ok c = true -> good_entries (BorderStyle_entries c) (BorderStyle_doc c).
Proof. destruct c; cbn [BorderStyle_entries BorderStyle_doc BorderStyle_call_ok]; tw_call. Qed.
Lemma good_BorderStyle cs : BorderStyle_ok cs = true -> good (BorderStyle_obj cs) (BorderStyle_reads cs).
Proof. intro H. eapply good_writer; [exact BorderStyle_head_good|exact BorderStyle_good|exact H]. Qed.
#[export] Hint Resolve good_BorderStyle : tw.
#[export] Hint Resolve BorderStyle_head_good BorderStyle_good : twh.
#[export] Hint Extern 1 (good (arr_of BorderStyle_obj _) _) => apply (good_arr_of BorderStyle_obj BorderStyle_reads BorderStyle_ok _ good_BorderStyle) : tw.
#[export] Hint Extern 1 (good (dict_of BorderStyle_obj _) _) => apply (good_dict_of BorderStyle_obj BorderStyle_reads BorderStyle_ok _ good_BorderStyle) : tw.

Lemma Annotation_head_good : good_entries Annotation_header Annotation_head.
Proof. unfold Annotation_header, Annotation_head. tw_entries. Qed.
Lemma Annotation_good c : Annotation_call_ok c = true -> good_entries (Annotation_entries c) (Annotation_doc c).
Proof. destruct c; cbn [Annotation_entries Annotation_doc Annotation_call_ok]; tw_call. Qed.
Lemma good_Annotation cs : Annotation_ok cs = true -> good (Annotation_obj cs) (Annotation_reads cs).
Proof. intro H. eapply good_writer; [exact Annotation_head_good|exact Annotation_good|exact H]. Qed.
#[export] Hint Resolve good_Annotation : tw.
#[export] Hint Resolve Annotation_head_good Annotation_good : twh.
#[export] Hint Extern 1 (good (arr_of Annotation_obj _) _) => apply (good_arr_of Annotation_obj Annotation_reads Annotation_ok _ good_Annotation) : tw.
#[export] Hint Extern 1 (good (dict_of Annotation_obj _) _) => apply (good_dict_of Annotation_obj Annotation_reads Annotation_ok _ good_Annotation) : tw.
