(** Proofs about typed writers: document structure.  Generated by gen/gen_writers.py. *)

From Coq Require Import ZArith List Bool.
From Verif Require ModelContent ModelCmap.
From Verif Require Import Bytes ModelFloat ModelBuf ModelObject ModelColor ModelSmall ModelPdf ModelTw ModelEnums ModelRoles ModelTwArgs ModelTwFiles ModelTwGraphics ModelTwAnnot ModelTwForms ModelTwAttr ModelTwXObj ModelTwFonts ModelTwDoc SpecLex SpecObj SpecText SpecMeans SpecPdf SpecTyped SpecColor SpecSmall SpecTw SpecEnums SpecRoles SpecTwArgs SpecTwFiles SpecTwGraphics SpecTwAnnot SpecTwForms SpecTwAttr SpecTwXObj SpecTwFonts SpecTwDoc ProofTyped ProofColor ProofTw ProofEnums ProofTwArgs ProofTwFiles ProofTwGraphics ProofTwAnnot ProofTwForms ProofTwAttr ProofTwXObj ProofTwFonts.
Import ListNotations.
Local Open Scope Z_scope.

Lemma DeveloperExtension_head_good : good_entries DeveloperExtension_header DeveloperExtension_head.
Proof. unfold DeveloperExtension_header, DeveloperExtension_head. tw_entries. Qed.
Lemma DeveloperExtension_good c : DeveloperExtension_call_ok c = true -> good_entries (DeveloperExtension_entries c) (DeveloperExtension_doc c).
Proof. destruct c; cbn [DeveloperExtension_entries DeveloperExtension_doc DeveloperExtension_call_ok]; tw_call. Qed.
Lemma good_DeveloperExtension cs : DeveloperExtension_ok cs = true -> good (DeveloperExtension_obj cs) (DeveloperExtension_reads cs).
Proof. intro H. eapply good_writer; [exact DeveloperExtension_head_good|exact DeveloperExtension_good|exact H]. Qed.
#[export] Hint Resolve good_DeveloperExtension : tw.
#[export] Hint Resolve DeveloperExtension_head_good DeveloperExtension_good : twh.
#[export] Hint Extern 1 (good (arr_of DeveloperExtension_obj _) _) => apply (good_arr_of DeveloperExtension_obj DeveloperExtension_reads DeveloperExtension_ok _ good_DeveloperExtension) : tw.
#[export] Hint Extern 1 (good (dict_of DeveloperExtension_obj _) _) => apply (good_dict_of DeveloperExtension_obj DeveloperExtension_reads DeveloperExtension_ok _ good_DeveloperExtension) : tw.

Lemma ViewerPreferences_head_good : good_entries ViewerPreferences_header ViewerPreferences_head.
Proof. unfold ViewerPreferences_header, ViewerPreferences_head. tw_entries. Qed.
Lemma ViewerPreferences_good c es : ViewerPreferences_call_ok c = true -> ViewerPreferences_entries c = Some es -> good_entries es (ViewerPreferences_doc c).
Proof. destruct c; cbn [ViewerPreferences_entries ViewerPreferences_doc ViewerPreferences_call_ok]; tw_call_opt. Qed.
Lemma ViewerPreferences_none c : ViewerPreferences_entries c <> None <-> ViewerPreferences_call_allowed c.
Proof. destruct c; cbn [ViewerPreferences_entries ViewerPreferences_call_allowed]; tw_none. Qed.
Lemma good_ViewerPreferences cs o : ViewerPreferences_ok cs = true -> ViewerPreferences_obj cs = Some o -> good o (ViewerPreferences_reads cs).
Proof. intros H E. eapply good_writer_opt; [exact ViewerPreferences_head_good|exact ViewerPreferences_good|exact H|exact E]. Qed.
Lemma ViewerPreferences_obj_none cs : ViewerPreferences_obj cs <> None <-> ViewerPreferences_allowed cs.
Proof. apply writer_opt_none. exact ViewerPreferences_none. Qed.
#[export] Hint Resolve good_ViewerPreferences : tw.
#[export] Hint Resolve ViewerPreferences_obj_none : twn.

Lemma PageLabel_head_good : good_entries PageLabel_header PageLabel_head.
Proof. unfold PageLabel_header, PageLabel_head. tw_entries. Qed.
Lemma PageLabel_good c : PageLabel_call_ok c = true -> good_entries (PageLabel_entries c) (PageLabel_doc c).
Proof. destruct c; cbn [PageLabel_entries PageLabel_doc PageLabel_call_ok]; tw_call. Qed.
Lemma good_PageLabel cs : PageLabel_ok cs = true -> good (PageLabel_obj cs) (PageLabel_reads cs).
Proof. intro H. eapply good_writer; [exact PageLabel_head_good|exact PageLabel_good|exact H]. Qed.
#[export] Hint Resolve good_PageLabel : tw.
#[export] Hint Resolve PageLabel_head_good PageLabel_good : twh.
#[export] Hint Extern 1 (good (arr_of PageLabel_obj _) _) => apply (good_arr_of PageLabel_obj PageLabel_reads PageLabel_ok _ good_PageLabel) : tw.
#[export] Hint Extern 1 (good (dict_of PageLabel_obj _) _) => apply (good_dict_of PageLabel_obj PageLabel_reads PageLabel_ok _ good_PageLabel) : tw.

Lemma DocumentInfo_head_good : good_entries DocumentInfo_header DocumentInfo_head.
Proof. unfold DocumentInfo_header, DocumentInfo_head. tw_entries. Qed.
Lemma DocumentInfo_good c : DocumentInfo_call_ok c = true -> good_entries (DocumentInfo_entries c) (DocumentInfo_doc c).
Proof. destruct c; cbn [DocumentInfo_entries DocumentInfo_doc DocumentInfo_call_ok]; tw_call. Qed.
Lemma good_DocumentInfo cs : DocumentInfo_ok cs = true -> good (DocumentInfo_obj cs) (DocumentInfo_reads cs).
Proof. intro H. eapply good_writer; [exact DocumentInfo_head_good|exact DocumentInfo_good|exact H]. Qed.
#[export] Hint Resolve good_DocumentInfo : tw.
#[export] Hint Resolve DocumentInfo_head_good DocumentInfo_good : twh.
#[export] Hint Extern 1 (good (arr_of DocumentInfo_obj _) _) => apply (good_arr_of DocumentInfo_obj DocumentInfo_reads DocumentInfo_ok _ good_DocumentInfo) : tw.
#[export] Hint Extern 1 (good (dict_of DocumentInfo_obj _) _) => apply (good_dict_of DocumentInfo_obj DocumentInfo_reads DocumentInfo_ok _ good_DocumentInfo) : tw.

Lemma Transition_head_good : good_entries Transition_header Transition_head.
Proof. unfold Transition_header, Transition_head. tw_entries. Qed.
Lemma Transition_good c : Transition_call_ok c = true -> good_entries (Transition_entries c) (Transition_doc c).
Proof. destruct c; cbn [Transition_entries Transition_doc Transition_call_ok]; tw_call. Qed.
Lemma good_Transition cs : Transition_ok cs = true -> good (Transition_obj cs) (Transition_reads cs).
Proof. intro H. eapply good_writer; [exact Transition_head_good|exact Transition_good|exact H]. Qed.
#[export] Hint Resolve good_Transition : tw.
#[export] Hint Resolve Transition_head_good Transition_good : twh.
#[export] Hint Extern 1 (good (arr_of Transition_obj _) _) => apply (good_arr_of Transition_obj Transition_reads Transition_ok _ good_Transition) : tw.
#[export] Hint Extern 1 (good (dict_of Transition_obj _) _) => apply (good_dict_of Transition_obj Transition_reads Transition_ok _ good_Transition) : tw.

Lemma Names_head_good : good_entries Names_header Names_head.
Proof. unfold Names_header, Names_head. tw_entries. Qed.
Lemma Names_good c : Names_call_ok c = true -> good_entries (Names_entries c) (Names_doc c).
Proof. destruct c; cbn [Names_entries Names_doc Names_call_ok]; tw_call. Qed.
Lemma good_Names cs : Names_ok cs = true -> good (Names_obj cs) (Names_reads cs).
Proof. intro H. eapply good_writer; [exact Names_head_good|exact Names_good|exact H]. Qed.
#[export] Hint Resolve good_Names : tw.
#[export] Hint Resolve Names_head_good Names_good : twh.
#[export] Hint Extern 1 (good (arr_of Names_obj _) _) => apply (good_arr_of Names_obj Names_reads Names_ok _ good_Names) : tw.
#[export] Hint Extern 1 (good (dict_of Names_obj _) _) => apply (good_dict_of Names_obj Names_reads Names_ok _ good_Names) : tw.

Lemma Pages_head_good : good_entries Pages_header Pages_head.
Proof. unfold Pages_header, Pages_head. tw_entries. Qed.
Lemma Pages_good c : Pages_call_ok c = true -> good_entries (Pages_entries c) (Pages_doc c).
Proof. destruct c; cbn [Pages_entries Pages_doc Pages_call_ok]; tw_call. Qed.
Lemma good_Pages cs : Pages_ok cs = true -> good (Pages_obj cs) (Pages_reads cs).
Proof. intro H. eapply good_writer; [exact Pages_head_good|exact Pages_good|exact H]. Qed.
#[export] Hint Resolve good_Pages : tw.
#[export] Hint Resolve Pages_head_good Pages_good : twh.
#[export] Hint Extern 1 (good (arr_of Pages_obj _) _) => apply (good_arr_of Pages_obj Pages_reads Pages_ok _ good_Pages) : tw.
#[export] Hint Extern 1 (good (dict_of Pages_obj _) _) => apply (good_dict_of Pages_obj Pages_reads Pages_ok _ good_Pages) : tw.

Lemma Page_head_good : good_entries Page_header Page_head.
Proof. unfold Page_header, Page_head. tw_entries. Qed.
Lemma Page_good c es : Page_call_ok c = true -> Page_entries c = Some es -> good_entries es (Page_doc c).
Proof. destruct c; cbn [Page_entries Page_doc Page_call_ok]; tw_call_opt. Qed.
Lemma Page_none c : Page_entries c <> None <-> Page_call_allowed c.
Proof. destruct c; cbn [Page_entries Page_call_allowed]; tw_none. Qed.
Lemma good_Page cs o : Page_ok cs = true -> Page_obj cs = Some o -> good o (Page_reads cs).
Proof. intros H E. eapply good_writer_opt; [exact Page_head_good|exact Page_good|exact H|exact E]. Qed.
Lemma Page_obj_none cs : Page_obj cs <> None <-> Page_allowed cs.
Proof. apply writer_opt_none. exact Page_none. Qed.
#[export] Hint Resolve good_Page : tw.
#[export] Hint Resolve Page_obj_none : twn.

Lemma Outline_head_good : good_entries Outline_header Outline_head.
Proof. unfold Outline_header, Outline_head. tw_entries. Qed.
Lemma Outline_good c es : Outline_call_ok c = true -> Outline_entries c = Some es -> good_entries es (Outline_doc c).
Proof. destruct c; cbn [Outline_entries Outline_doc Outline_call_ok]; tw_call_opt. Qed.
Lemma Outline_none c : Outline_entries c <> None <-> Outline_call_allowed c.
Proof. destruct c; cbn [Outline_entries Outline_call_allowed]; tw_none. Qed.
Lemma good_Outline cs o : Outline_ok cs = true -> Outline_obj cs = Some o -> good o (Outline_reads cs).
Proof. intros H E. eapply good_writer_opt; [exact Outline_head_good|exact Outline_good|exact H|exact E]. Qed.
Lemma Outline_obj_none cs : Outline_obj cs <> None <-> Outline_allowed cs.
Proof. apply writer_opt_none. exact Outline_none. Qed.
#[export] Hint Resolve good_Outline : tw.
#[export] Hint Resolve Outline_obj_none : twn.

Lemma OutlineItem_head_good : good_entries OutlineItem_header OutlineItem_head.
Proof. unfold OutlineItem_header, OutlineItem_head. tw_entries. Qed.
Lemma OutlineItem_good c : OutlineItem_call_ok c = true -> good_entries (OutlineItem_entries c) (OutlineItem_doc c).
Proof. destruct c; cbn [OutlineItem_entries OutlineItem_doc OutlineItem_call_ok]; tw_call. Qed.
Lemma good_OutlineItem cs : OutlineItem_ok cs = true -> good (OutlineItem_obj cs) (OutlineItem_reads cs).
Proof. intro H. eapply good_writer; [exact OutlineItem_head_good|exact OutlineItem_good|exact H]. Qed.
#[export] Hint Resolve good_OutlineItem : tw.
#[export] Hint Resolve OutlineItem_head_good OutlineItem_good : twh.
#[export] Hint Extern 1 (good (arr_of OutlineItem_obj _) _) => apply (good_arr_of OutlineItem_obj OutlineItem_reads OutlineItem_ok _ good_OutlineItem) : tw.
#[export] Hint Extern 1 (good (dict_of OutlineItem_obj _) _) => apply (good_dict_of OutlineItem_obj OutlineItem_reads OutlineItem_ok _ good_OutlineItem) : tw.

Lemma Catalog_head_good : good_entries Catalog_header Catalog_head.
Proof. unfold Catalog_header, Catalog_head. tw_entries. Qed.
Lemma Catalog_good c es : Catalog_call_ok c = true -> Catalog_entries c = Some es -> good_entries es (Catalog_doc c).
Proof. destruct c; cbn [Catalog_entries Catalog_doc Catalog_call_ok]; tw_call_opt. Qed.
Lemma Catalog_none c : Catalog_entries c <> None <-> Catalog_call_allowed c.
Proof. destruct c; cbn [Catalog_entries Catalog_call_allowed]; tw_none. Qed.
Lemma good_Catalog cs o : Catalog_ok cs = true -> Catalog_obj cs = Some o -> good o (Catalog_reads cs).
Proof. intros H E. eapply good_writer_opt; [exact Catalog_head_good|exact Catalog_good|exact H|exact E]. Qed.
Lemma Catalog_obj_none cs : Catalog_obj cs <> None <-> Catalog_allowed cs.
Proof. apply writer_opt_none. exact Catalog_none. Qed.
#[export] Hint Resolve good_Catalog : tw.
#[export] Hint Resolve Catalog_obj_none : twn.
