(** C77: a document assembled from parts, in any style, is read like the document written by calls on the document itself; and with one
    setting it is the same file. *)

From Coq Require Import ZArith List Bool Lia.
From Verif Require ModelCmap ModelContent SpecContent.
From Verif Require Import Bytes ModelFloat ModelBuf ModelObject ModelChunk ModelColor ModelSmall ModelPdf ModelTw ModelEnums ModelRoles ModelTwArgs
  ModelTwFiles ModelTwGraphics ModelTwAnnot ModelTwForms ModelTwAttr ModelTwXObj ModelTwFonts ModelTwDoc ModelFontDesc ModelDoc ModelPart
  SpecLex SpecObj SpecText SpecMeans SpecRenum SpecChunk SpecFile SpecPdf SpecTyped SpecColor SpecSmall SpecTw SpecEnums SpecRoles SpecTwArgs
  SpecTwFiles SpecTwGraphics SpecTwAnnot SpecTwForms SpecTwAttr SpecTwXObj SpecTwFonts SpecTwDoc SpecFontDesc SpecDoc SpecPart SpecPages SpecExtract SpecNav SpecViews
  SpecRename SpecAssembled
  ProofBasic ProofTree ProofTyped ProofTw ProofTwDoc ProofChunk ProofPdf PropDoc PropPdf2 PropPages PropExtract PropNav PropPart ProofAssembled.
Import ListNotations.
Local Open Scope Z_scope.

(** The calls of [effective] write the objects of the parts, under the ids that the closures gave; the catalog is the document's. *)
Theorem C77_same_ids : forall ops, doc_ids (effective ops) = merge_ids ops /\ doc_catalog (effective ops) = merge_catalog ops.
Proof.
  assert (E : forall fs, doc_ids (map effective_call fs) = map (fun x => snd (fst x) (fst (fst x))) fs).
  { induction fs as [|[[id g] [c|o]] fs IH]; [reflexivity| |]; unfold doc_ids in *; cbn [map flat_map]; rewrite IH; reflexivity. }
  assert (S : forall fs a, fold_left (fun a op => match op with DocCatalog id _ | DocOther (PdfCatalog id _) => Some id | _ => a end) (map effective_call fs) a = a).
  { induction fs as [|[[id g] [c|o]] fs IH]; intro a; [reflexivity| |]; cbn [map fold_left effective_call]; apply IH. }
  intro ops. split.
  - unfold effective, merge_ids. induction ops as [|op ops IH]; [reflexivity|]. cbn [flat_map]. unfold doc_ids in *. rewrite flat_map_app, IH. f_equal.
    destruct op as [op|p|p T f s]; cbn [effective_op merge_op_ids].
    + cbn [flat_map]. apply app_nil_r.
    + apply E.
    + rewrite E. cbn [part_found app]. rewrite map_map. reflexivity.
  - unfold merge_catalog, doc_catalog, effective. generalize (@None Z). induction ops as [|op ops IH]; intro a; [reflexivity|].
    cbn [flat_map]. rewrite !fold_left_app, IH. f_equal. destruct op as [op|p|p T f s]; cbn [effective_op fold_left]; [reflexivity| |]; apply S.
Qed.

(** If all chunks have the settings of the document, then the document without parts panics exactly if the assembled one does, and otherwise
    has the same bytes, the same objects at the same places, and the same finished files. *)
Theorem C77_same_file : forall pretty ops, Forall merge_op_ok ops -> Forall (merge_settings pretty) ops ->
  match merge_run ops (pdf_with_settings pretty), doc_run (effective ops) (pdf_with_settings pretty) with
  | Some p, Some p' =>
      chunk_bytes (p_chunk p) = chunk_bytes (p_chunk p') /\ c_offsets (p_chunk p) = c_offsets (p_chunk p') /\
      finish p = finish p' /\
      (forall xref_id, finish_with_xref_stream p xref_id = finish_with_xref_stream p' xref_id) /\
      (forall xref_id filter, finish_with_xref_stream_and_filter p xref_id filter = finish_with_xref_stream_and_filter p' xref_id filter)
  | None, None => True
  | _, _ => False
  end.
Proof.
  intros pretty ops K M. pose proof (same_document pretty ops K M) as X. unfold alike_results in X.
  destruct (merge_run ops (pdf_with_settings pretty)) as [p|], (doc_run (effective ops) (pdf_with_settings pretty)) as [p'|]; try contradiction; [|exact X].
  pose proof X as (h & l & [H1 H2] & [H1' H2'] & _). split; [congruence|]. split; [congruence|].
  split; [exact (finish_alike pretty p p' X)|].
  split; intros; apply (finish_stream_alike pretty p p' _ _ X).
Qed.

(** Whatever the settings: the objects read back as if they had been written to the document itself (C57 for assembled documents). *)
Theorem C77_typed_objects_are_found : forall decode ops cat file, finished_document decode ops cat file ->
  Forall (fun op => doc_op_reads op (resolve decode file)) ops.
Proof. intros decode ops cat file D. apply (document_facts decode ops cat file D). Qed.
(** The pages, and the text on them (C58 and C64 for assembled documents; C65-C76 are stated for these already). *)
Theorem C77_pages_read_back : forall decode ops cat file calls tree, finished_document decode ops cat file -> In (DocCatalog cat calls) ops ->
  root_given calls (tree_id tree) ->
  tree_written decode ops tree ->
  exists pages depth, Forall2 page_reads (tree_pages tree) pages /\
    forall n, (depth <= n)%nat -> read_pages decode n file = Some pages.
Proof.
  intros decode ops cat file calls tree D I E W. destruct (document_facts decode ops cat file D) as (X & entries & trailer & T1 & T2).
  eapply walk_file; eassumption.
Qed.
Theorem C77_text_is_extracted : forall decode ops cat file calls tree texts, finished_document decode ops cat file -> In (DocCatalog cat calls) ops ->
  root_given calls (text_tree_id tree) ->
  text_tree_written decode ops tree -> tree_texts [] tree = Some texts ->
  exists depth, forall n, (depth <= n)%nat -> read_texts decode n file = Some texts.
Proof.
  intros decode ops cat file calls tree texts D I E W A. destruct (document_facts decode ops cat file D) as (X & entries & trailer & T1 & T2).
  eapply texts_in_file; eassumption.
Qed.

(** ** A concrete case *)

(** A font with its character map, in a chunk of its own; renumbered into the chunk of a page that uses it; renumbered into the document
    with the documented closure.  The page's parent is a reference like the others: the page tree gets the number that it was given. *)
Definition font_chunk : part :=
  PartWrite (PartWrite (PartNew false) 1
    (PcTyped (Ck_type0_font [Typed (Type0Font_base_font (lit "Go")); Typed (Type0Font_encoding_predefined (lit "Identity-H")); Typed (Type0Font_to_unicode 2)])))
    2 (PcTyped (Ck_cmap text_cmap16 [])).
Definition page_chunk : part :=
  PartRenumber
    (PartWrite (PartWrite (PartNew true) 1
      (PcTyped (Ck_page [Typed (Page_parent 9); Typed (Page_contents 2);
                         Typed (Page_resources [Typed (Resources_fonts [(lit "F", OPrim (PRef 5))])])])))
      2 (PcTyped (Ck_stream (content_of text_page1) [])))
    font_chunk unit (fun t id => (id + 4, t)) tt.
Definition assembled_sample : list merge_op := [
  MRenumber page_chunk memo_state memo ([], 10);
  MDoc (DocTyped 11 (Ck_pages [Typed (Pages_kids [10]); Typed (Pages_count 1)]));
  MDoc (DocCatalog 1 [Typed (Catalog_pages 11)])].
(** What this amounts to. *)
Definition assembled_calls : list doc_op := [
  DocTyped 10 (Ck_page [Typed (Page_parent 11); Typed (Page_contents 12); Typed (Page_resources [Typed (Resources_fonts [(lit "F", OPrim (PRef 13))])])]);
  DocTyped 12 (Ck_stream (content_of text_page1) []);
  DocTyped 13 (Ck_type0_font [Typed (Type0Font_base_font (lit "Go")); Typed (Type0Font_encoding_predefined (lit "Identity-H")); Typed (Type0Font_to_unicode 14)]);
  DocTyped 14 (Ck_cmap text_cmap16 []);
  DocTyped 11 (Ck_pages [Typed (Pages_kids [10]); Typed (Pages_count 1)]);
  DocCatalog 1 [Typed (Catalog_pages 11)]].
Example C77_case : Forall merge_op_ok assembled_sample /\ effective assembled_sample = assembled_calls /\
  exists file, finished_document no_filter assembled_calls 1 file /\ read_texts no_filter 2 file = Some [[72; 960; 33; 128512; 72]].
Proof.
  assert (K : Forall merge_op_ok assembled_sample).
  { constructor; [|constructor; [|constructor; [|constructor]]]; cbn [merge_op_ok doc_op_ok].
    - split; [|apply C60_closure_ok; vm_compute; congruence].
      cbn [part_ok page_chunk]. split; [repeat split|]. split; [repeat split|]. split; [apply ProofPart.consistent_pure|].
      rewrite ProofPart.agree_pure. cbn [fst]. replace (part_ids font_chunk) with [1; 2; 2] by (vm_compute; reflexivity). repeat constructor.
    - split; reflexivity.
    - split; reflexivity. }
  assert (E : effective assembled_sample = assembled_calls) by (vm_compute; reflexivity).
  split; [exact K|]. split; [exact E|].
  assert (X : match merge_run assembled_sample (pdf_with_settings true) with
              | Some p => match finish p with Some f => (blen f <=? 10 ^ 10, read_texts no_filter 2 f) | None => (false, None) end
              | None => (false, None) end = (true, Some [[72; 960; 33; 128512; 72]])) by (vm_compute; reflexivity).
  destruct (merge_run assembled_sample (pdf_with_settings true)) as [p|] eqn:R; [|discriminate].
  destruct (finish p) as [file|] eqn:F; [|discriminate]. exists file. split; [|exact (f_equal snd X)].
  apply (assembled_table no_filter assembled_calls 1 file true assembled_sample p); [symmetry; exact E|exact K|exact R|exact F| | |reflexivity].
  - unfold ids_below. repeat constructor.
  - apply Z.leb_le. exact (f_equal fst X).
Qed.
(** With one setting, the hypotheses of the byte-for-byte theorem are met as well. *)
Example C77_same_case : let ops := [MRenumber memo_part memo_state memo ([], 5); MDoc (DocCatalog 1 [Typed (Catalog_pages 5)])] in
  Forall merge_op_ok ops /\ Forall (merge_settings true) ops /\ merge_ids ops = [5; 6; 1] /\ merge_run ops (pdf_with_settings true) <> None.
Proof.
  cbv zeta. split.
  { constructor; [|constructor; [|constructor]]; cbn [merge_op_ok doc_op_ok]; [|split; reflexivity].
    split; [cbn [part_ok memo_part]; repeat split|]. apply C60_closure_ok; vm_compute; congruence. }
  split; [repeat constructor|]. split; [vm_compute; reflexivity|]. vm_compute. discriminate.
Qed.

Print Assumptions C77_same_ids.
Print Assumptions C77_same_file.
Print Assumptions C77_typed_objects_are_found.
Print Assumptions C77_pages_read_back.
Print Assumptions C77_text_is_extracted.
