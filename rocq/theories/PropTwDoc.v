(** Properties of typed writers: document structure. *)

From Coq Require Import ZArith List Bool.
From Verif Require ModelContent ModelCmap.
From Verif Require Import Bytes ModelFloat ModelBuf ModelObject ModelColor ModelSmall ModelPdf ModelTw ModelEnums ModelRoles ModelTwArgs ModelTwFiles ModelTwGraphics ModelTwAnnot ModelTwForms ModelTwAttr ModelTwXObj ModelTwFonts ModelTwDoc ModelChunk SpecLex SpecObj SpecText SpecMeans SpecPdf SpecTyped SpecColor SpecSmall SpecTw SpecEnums SpecRoles SpecTwArgs SpecTwFiles SpecTwGraphics SpecTwAnnot SpecTwForms SpecTwAttr SpecTwXObj SpecTwFonts SpecTwDoc SpecChunk ProofTyped ProofColor ProofTw ProofEnums ProofTwArgs ProofTwFiles ProofTwGraphics ProofTwAnnot ProofTwForms ProofTwAttr ProofTwXObj ProofTwFonts ProofTwDoc.
Import ListNotations.
Local Open Scope Z_scope.

(** ** DeveloperExtension *)

Theorem C50_developer_extension : forall calls, DeveloperExtension_ok calls = true -> reads (DeveloperExtension_obj calls) (DeveloperExtension_reads calls).
Proof. intros cs H. apply good_reads. apply good_DeveloperExtension. exact H. Qed.
Example developer_extension_case : DeveloperExtension_ok DeveloperExtension_sample = true.
Proof. vm_compute. reflexivity. Qed.

(** ** ViewerPreferences *)

Theorem C50_viewer_preferences : forall calls o, ViewerPreferences_ok calls = true -> ViewerPreferences_obj calls = Some o -> reads o (ViewerPreferences_reads calls).
Proof. intros cs o H E. apply good_reads. apply good_ViewerPreferences; assumption. Qed.
Theorem C44_viewer_preferences : forall calls, ViewerPreferences_obj calls <> None <-> ViewerPreferences_allowed calls.
Proof. exact ViewerPreferences_obj_none. Qed.
Example viewer_preferences_case : ViewerPreferences_ok ViewerPreferences_sample = true /\ ViewerPreferences_obj ViewerPreferences_sample <> None.
Proof. vm_compute. split; [reflexivity|discriminate]. Qed.

(** ** PageLabel *)

Theorem C50_page_label : forall calls, PageLabel_ok calls = true -> reads (PageLabel_obj calls) (PageLabel_reads calls).
Proof. intros cs H. apply good_reads. apply good_PageLabel. exact H. Qed.
Example page_label_case : PageLabel_ok PageLabel_sample = true.
Proof. vm_compute. reflexivity. Qed.

(** ** DocumentInfo *)

Theorem C50_document_info : forall calls, DocumentInfo_ok calls = true -> reads (DocumentInfo_obj calls) (DocumentInfo_reads calls).
Proof. intros cs H. apply good_reads. apply good_DocumentInfo. exact H. Qed.
Example document_info_case : DocumentInfo_ok DocumentInfo_sample = true.
Proof. vm_compute. reflexivity. Qed.

(** ** Transition *)

Theorem C50_transition : forall calls, Transition_ok calls = true -> reads (Transition_obj calls) (Transition_reads calls).
Proof. intros cs H. apply good_reads. apply good_Transition. exact H. Qed.
Example transition_case : Transition_ok Transition_sample = true.
Proof. vm_compute. reflexivity. Qed.

(** ** Names *)

Theorem C50_names : forall calls, Names_ok calls = true -> reads (Names_obj calls) (Names_reads calls).
Proof. intros cs H. apply good_reads. apply good_Names. exact H. Qed.
Example names_case : Names_ok Names_sample = true.
Proof. vm_compute. reflexivity. Qed.

(** ** Pages *)

Theorem C50_pages : forall calls, Pages_ok calls = true -> reads (Pages_obj calls) (Pages_reads calls).
Proof. intros cs H. apply good_reads. apply good_Pages. exact H. Qed.
Example pages_case : Pages_ok Pages_sample = true.
Proof. vm_compute. reflexivity. Qed.

(** ** Page *)

Theorem C50_page : forall calls o, Page_ok calls = true -> Page_obj calls = Some o -> reads o (Page_reads calls).
Proof. intros cs o H E. apply good_reads. apply good_Page; assumption. Qed.
Theorem C44_page : forall calls, Page_obj calls <> None <-> Page_allowed calls.
Proof. exact Page_obj_none. Qed.
Example page_case : Page_ok Page_sample = true /\ Page_obj Page_sample <> None.
Proof. vm_compute. split; [reflexivity|discriminate]. Qed.

(** ** Outline *)

Theorem C50_outline : forall calls o, Outline_ok calls = true -> Outline_obj calls = Some o -> reads o (Outline_reads calls).
Proof. intros cs o H E. apply good_reads. apply good_Outline; assumption. Qed.
Theorem C44_outline : forall calls, Outline_obj calls <> None <-> Outline_allowed calls.
Proof. exact Outline_obj_none. Qed.
Example outline_case : Outline_ok Outline_sample = true /\ Outline_obj Outline_sample <> None.
Proof. vm_compute. split; [reflexivity|discriminate]. Qed.

(** ** OutlineItem *)

Theorem C50_outline_item : forall calls, OutlineItem_ok calls = true -> reads (OutlineItem_obj calls) (OutlineItem_reads calls).
Proof. intros cs H. apply good_reads. apply good_OutlineItem. exact H. Qed.
Example outline_item_case : OutlineItem_ok OutlineItem_sample = true.
Proof. vm_compute. reflexivity. Qed.

(** ** Catalog *)

Theorem C50_catalog : forall calls o, Catalog_ok calls = true -> Catalog_obj calls = Some o -> reads o (Catalog_reads calls).
Proof. intros cs o H E. apply good_reads. apply good_Catalog; assumption. Qed.
Theorem C44_catalog : forall calls, Catalog_obj calls <> None <-> Catalog_allowed calls.
Proof. exact Catalog_obj_none. Qed.
Example catalog_case : Catalog_ok Catalog_sample = true /\ Catalog_obj Catalog_sample <> None.
Proof. vm_compute. split; [reflexivity|discriminate]. Qed.

(** ** Deviations *)

(** The boolean entry [B] of a fly transition is documented; a number is written under [F]. *)
Theorem C50_opaque_refuted : forall x,
  real_ok x = true ->
  reads (Transition_obj [Typed (Transition_opaque x)])
        (fun v => forall p, ~ is_dict [(lit "Type", is_name (lit "Trans")); (lit "B", p)] v).
Proof.
  intros x H. eapply reads_weaken.
  - apply C50_transition. unfold Transition_ok. cbn [forallb raw_ok Transition_call_ok]. rewrite H. reflexivity.
  - intros v (d & -> & F) p (d' & E & F'). injection E as <-.
    inversion F as [|? ? ? ? _ G]; subst. inversion G as [|? ? ? ? [A _] _]; subst.
    inversion F' as [|? ? ? ? _ G']; subst. inversion G' as [|? ? ? ? [B _] _]; subst.
    cbn [fst] in A, B. rewrite A in B. discriminate.
Qed.

Print Assumptions C50_developer_extension.
Print Assumptions C50_viewer_preferences.
Print Assumptions C44_viewer_preferences.
Print Assumptions C50_page_label.
Print Assumptions C50_document_info.
Print Assumptions C50_transition.
Print Assumptions C50_names.
Print Assumptions C50_pages.
Print Assumptions C50_page.
Print Assumptions C44_page.
Print Assumptions C50_outline.
Print Assumptions C44_outline.
Print Assumptions C50_outline_item.
Print Assumptions C50_catalog.
Print Assumptions C44_catalog.
Print Assumptions C50_opaque_refuted.
