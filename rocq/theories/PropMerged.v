(** C62: the pages of documents assembled from parts. *)

From Coq Require Import ZArith List Lia Bool.
From Verif Require ModelContent SpecContent PropContent ModelCmap.
From Verif Require Import Bytes ModelFloat ModelBuf ModelObject ModelChunk ModelColor ModelSmall ModelPdf ModelTw ModelEnums ModelRoles ModelTwArgs
  ModelTwFiles ModelTwGraphics ModelTwAnnot ModelTwForms ModelTwAttr ModelTwXObj ModelTwFonts ModelTwDoc ModelFontDesc ModelDoc ModelPart
  SpecLex SpecObj SpecText SpecMeans SpecRenum SpecChunk SpecFile SpecPdf SpecTyped SpecColor SpecSmall SpecTw SpecEnums SpecRoles SpecTwArgs
  SpecTwFiles SpecTwGraphics SpecTwAnnot SpecTwForms SpecTwAttr SpecTwXObj SpecTwFonts SpecTwDoc SpecFontDesc SpecDoc SpecPart SpecPages SpecMerged
  ProofTyped ProofColor ProofTw ProofDoc PropPdf PropPdf2 PropDoc PropPages ProofPart PropPart.
Import ListNotations.
Local Open Scope Z_scope.

Lemma map_val_id v : map_val (fun n => n) v = v.
Proof.
  revert v. fix IH 1. intros [| | | | | | |l|l]; cbn [map_val]; try reflexivity.
  - f_equal. induction l as [|v l IHl]; [reflexivity|]. cbn [map]. rewrite IH, IHl. reflexivity.
  - f_equal. induction l as [|[k v] l IHl]; [reflexivity|]. cbn [map fst snd]. rewrite IH, IHl. reflexivity.
Qed.
Lemma map_indirect_id i : map_indirect (fun n => n) i = i.
Proof.
  destruct i as [id gen v|id gen d data]; cbn [map_indirect]; [rewrite map_val_id; reflexivity|]. f_equal.
  induction d as [|[k v] d IH]; [reflexivity|]. cbn [map fst snd]. rewrite map_val_id, IH. reflexivity.
Qed.
Lemma lookup_map k g d : lookup k (map (fun e => (fst e, map_val g (snd e))) d) = option_map (map_val g) (lookup k d).
Proof. induction d as [|[k' v] d IH]; [reflexivity|]. cbn [map lookup fst snd]. destruct (bytes_eqb k k'); [reflexivity|exact IH]. Qed.

Section Walk.
  Variables (decode : option val -> bytes -> option bytes) (resolved : Z -> option indirect) (ops : list merge_op).
  Hypothesis R : Forall (fun op => merge_op_reads op resolved) ops.

  Lemma all_found : Forall (found_reads resolved) (all_written ops).
  Proof.
    apply Forall_forall. intros x H. unfold all_written in H. apply in_flat_map in H as (op & H1 & H2). rewrite Forall_forall in R.
    specialize (R _ H1). destruct op as [[id c|id c|id c|op]|p|p T f s]; cbn [written_to In] in H2; try contradiction.
    - destruct H2 as [<-|[]]. cbn [merge_op_reads doc_op_reads found_reads part_call_reads] in *. destruct R as (i & E & Q).
      exists i. split; [exact Q|]. rewrite map_indirect_id. exact E.
    - cbn [merge_op_reads] in R. rewrite Forall_forall in R. exact (R _ H2).
    - cbn [merge_op_reads] in R. rewrite Forall_forall in R. exact (R _ H2).
  Qed.
  Lemma found id g c : In (id, g, PcTyped c) (all_written ops) -> exists i, chunk_call_reads id c i /\ resolved (g id) = Some (map_indirect g i).
  Proof. intro H. pose proof all_found as F. rewrite Forall_forall in F. exact (F _ H). Qed.

  Lemma content_found calls cid : content_assembled decode ops calls cid ->
    exists pretty out, stream_content decode resolved cid = Some out /\
      forallb (SpecContent.ccall_ok pretty) calls = true /\
      exists c, ModelContent.content_run calls (ModelContent.content_with_settings pretty) = Some c /\
        out = inner (ModelContent.content_finish c).
  Proof.
    intros (id0 & g & scalls & data & pretty & c & H1 & <- & H2 & H3 & S). exists pretty, (inner (ModelContent.content_finish c)).
    split; [|split; [exact H2|exists c; split; [exact H3|reflexivity]]].
    destruct (found _ _ _ H1) as (i & (vs & -> & D) & E). unfold stream_content. rewrite E. cbn [map_indirect]. rewrite lookup_map.
    change (lookup (lit "Filter") ((lit "Length", VInt (blen data)) :: vs)) with (lookup (lit "Filter") vs).
    destruct S as (f & S1 & S2). unfold Stream_reads in D. entries S1 Stream_head Stream_doc is_filter. destruct f as [f|].
    - destruct (dict_lookup _ _ _ _ D S1) as (v & L & P). rewrite L. unfold is_filter in P. subst v. exact S2.
    - rewrite (dict_lookup_none _ _ _ D S1). cbn [undone] in S2. subst. reflexivity.
  Qed.
  Lemma contents_found l cids : Forall2 (content_assembled decode ops) l cids ->
    exists parts outs, map snd parts = l /\
      streams_content decode resolved (map (fun r => VRef r 0) cids) = Some outs /\
      Forall2 (fun part out => let '(pretty, calls) := part in
        forallb (SpecContent.ccall_ok pretty) calls = true /\
        exists c, ModelContent.content_run calls (ModelContent.content_with_settings pretty) = Some c /\
          out = inner (ModelContent.content_finish c)) parts outs.
  Proof.
    induction 1 as [|calls cid l cids W F (parts & outs & E1 & E2 & E3)].
    - exists [], []. repeat split. constructor.
    - destruct (content_found _ _ W) as (pretty & out & H1 & H2 & H3). exists ((pretty, calls) :: parts), (out :: outs).
      split; [cbn [map snd]; f_equal; exact E1|]. split; [cbn [map streams_content]; rewrite H1, E2; reflexivity|].
      constructor; [split; assumption|exact E3].
  Qed.
  Lemma map_refs_val g cids : map (map_val g) (map (fun r => VRef r 0) cids) = map (fun r => VRef r 0) (map g cids).
  Proof. rewrite !map_map. reflexivity. Qed.

  Lemma walk_assembled : forall t, tree_assembled decode ops t ->
    exists pages, Forall2 page_reads (tree_pages t) pages /\
      forall n, (tree_depth t <= n)%nat -> pages_below decode resolved n (VRef (tree_id t) 0) = Some pages.
  Proof.
    fix IH 1. intros [id contents|id kids] W; cbn [tree_assembled tree_pages tree_id tree_depth] in *.
    - destruct W as (id0 & g & calls & H1 & <- & H2).
      enough (X : exists l, page_reads (contents_calls contents) l /\
        forall d, is_dict (writer_doc Page_head Page_doc calls) (VDict d) ->
          page_operations decode resolved (map (fun e => (fst e, map_val g (snd e))) d) = Some l).
      { destruct X as (l & M & P). exists [l]. split; [constructor; [exact M|constructor]|]. intros [|n] L; [inversion L|].
        destruct (found _ _ _ H1) as (i & (v & -> & D) & E). destruct (dict_is _ _ D) as [d ->].
        cbn [pages_below]. rewrite E. cbn [map_indirect map_val]. rewrite lookup_map.
        destruct (dict_first _ _ _ _ D) as (t & L1 & Q). rewrite L1. unfold is_name in Q. subst t. cbn [option_map map_val].
        change (bytes_eqb (lit "Page") (lit "Pages")) with false. change (bytes_eqb (lit "Page") (lit "Page")) with true. cbv iota.
        rewrite (P d D). reflexivity. }
      destruct contents as [|content|l]; cbn [contents_calls].
      + apply contents_entry in H2; cbn [option_map entry_or_none contents_are] in H2. exists []. split; [constructor|]. intros d D. unfold page_operations. rewrite lookup_map, (dict_lookup_none _ _ _ D H2). reflexivity.
      + destruct H2 as (cid & H2 & H3). apply contents_entry in H2; cbn [option_map entry_or_none contents_are] in H2. destruct (content_found _ _ H3) as (pretty & out & E1 & E2 & c & E3 & ->).
        destruct (PropContent.C36_finish_keeps_operations pretty content c E2 E3) as (_ & l & P & M).
        exists l. split; [exact M|]. intros d D. destruct (dict_lookup _ _ _ _ D H2) as (v & K & Q). unfold is_ref in Q. subst v.
        unfold page_operations. rewrite lookup_map, K. cbn [option_map map_val]. rewrite E1. exact P.
      + destruct H2 as (cids & H2 & H3). apply contents_entry in H2; cbn [option_map entry_or_none contents_are] in H2. destruct (contents_found _ _ H3) as (parts & outs & <- & E2 & E3).
        destruct (PropContent.C36_split_over_streams parts outs E3) as (l & P & M). rewrite flat_snd in M.
        exists l. split; [exact M|]. intros d D. destruct (dict_lookup _ _ _ _ D H2) as (v & K & vs & -> & Q).
        apply refs_found in Q. subst vs. unfold page_operations. rewrite lookup_map, K. cbn [option_map map_val]. rewrite map_refs_val, E2. exact P.
    - destruct W as [(id0 & g & calls & kids0 & H1 & <- & H2 & H3) W]. apply kids_entry_of in H2.
      assert (A : exists pages, Forall2 page_reads (flat_map tree_pages kids) pages /\
        forall n, (fold_right Nat.max 0 (map tree_depth kids) <= n)%nat ->
          concat_all (map (pages_below decode resolved n) (map (fun r => VRef r 0) (map tree_id kids))) = Some pages).
      { clear H2 H3. induction kids as [|t kids IHk]; [exists []; split; [constructor|reflexivity]|].
        destruct W as [W1 W2]. destruct (IH t W1) as (p1 & F1 & D1). destruct (IHk W2) as (p2 & F2 & D2).
        exists (p1 ++ p2). split; [apply Forall2_app; assumption|]. intros n L. cbn [map fold_right] in L. cbn [map concat_all].
        rewrite D1 by (etransitivity; [apply Nat.le_max_l|exact L]). rewrite D2 by (etransitivity; [apply Nat.le_max_r|exact L]). reflexivity. }
      destruct A as (pages & F & D). exists pages. split; [exact F|]. intros [|n] L; [inversion L|]. apply le_S_n in L.
      destruct (found _ _ _ H1) as (i & (v & -> & X) & E). destruct (dict_is _ _ X) as [d ->].
      cbn [pages_below]. rewrite E. cbn [map_indirect map_val]. rewrite !lookup_map.
      destruct (dict_first _ _ _ _ X) as (t & L1 & P). rewrite L1. unfold is_name in P. subst t. cbn [option_map map_val].
      change (bytes_eqb (lit "Pages") (lit "Pages")) with true. cbv iota.
      destruct (dict_lookup _ _ _ _ X H2) as (v & L2 & vs & -> & Q). rewrite L2. apply refs_found in Q. subst vs.
      cbn [option_map map_val]. rewrite map_refs_val, H3. exact (D n L).
  Qed.
End Walk.

Lemma walk_merged decode ops file cat calls tree entries trailer :
  Forall (fun op => merge_op_reads op (resolve decode file)) ops ->
  read_file decode file = Some (entries, trailer) -> lookup (lit "Root") trailer = Some (VRef cat 0) ->
  In (MDoc (DocCatalog cat calls)) ops ->
  root_given calls (tree_id tree) ->
  tree_assembled decode ops tree ->
  exists pages depth, Forall2 page_reads (tree_pages tree) pages /\
    forall n, (depth <= n)%nat -> read_pages decode n file = Some pages.
Proof.
  intros X T1 T2 I E W. apply root_entry in E.
  destruct (walk_assembled decode (resolve decode file) ops X tree W) as (pages & F2 & D).
  exists pages, (tree_depth tree). split; [exact F2|]. intros n Hn. unfold read_pages. rewrite T1, T2.
  rewrite Forall_forall in X. destruct (X _ I) as (i & E1 & v & -> & M). rewrite E1. destruct (dict_is _ _ M) as [d ->].
  destruct (dict_lookup _ _ _ _ M E) as (v & L1 & P). rewrite L1. unfold is_ref in P. subst v. apply D. exact Hn.
Qed.

(** Pages, page tree nodes and content streams may come from any parts, however these were extended and renumbered: as long as the
    renamed references make up a page tree in the end, a reader finds its pages from left to right, each with the operations
    that were asked for. *)
Theorem C62_assembled_pages_read_back : forall decode pretty ops p file cat calls tree,
  Forall merge_op_ok ops -> merge_run ops (pdf_with_settings pretty) = Some p -> finish p = Some file ->
  ids_below (merge_ids ops) -> blen file <= 10 ^ 10 ->
  merge_catalog ops = Some cat -> In (MDoc (DocCatalog cat calls)) ops ->
  root_given calls (tree_id tree) ->
  tree_assembled decode ops tree ->
  exists pages depth, Forall2 page_reads (tree_pages tree) pages /\
    forall n, (depth <= n)%nat -> read_pages decode n file = Some pages.
Proof.
  intros decode pretty ops p file cat calls tree K R F B L C I E W.
  destruct (C59_assembled_documents decode pretty ops p file K R F B L) as [X _].
  destruct (C59_root decode pretty ops p file cat K R F B L C) as (entries & trailer & T1 & T2).
  eapply walk_merged; eassumption.
Qed.
Theorem C62_assembled_pages_read_back_stream : forall decode pretty ops p xref_id file cat calls tree,
  Forall merge_op_ok ops -> merge_run ops (pdf_with_settings pretty) = Some p ->
  id_ok xref_id = true -> ids_below (xref_id :: merge_ids ops) ->
  finished_with_stream decode p xref_id file -> blen file < 2 ^ 64 ->
  merge_catalog ops = Some cat -> In (MDoc (DocCatalog cat calls)) ops ->
  root_given calls (tree_id tree) ->
  tree_assembled decode ops tree ->
  exists pages depth, Forall2 page_reads (tree_pages tree) pages /\
    forall n, (depth <= n)%nat -> read_pages decode n file = Some pages.
Proof.
  intros decode pretty ops p xref_id file cat calls tree K R I0 B F L C I E W.
  destruct (C59_assembled_documents_stream decode pretty ops p xref_id file K R I0 B F L) as [X _].
  destruct (C59_root_stream decode pretty ops p xref_id file cat K R I0 B F L C) as (entries & trailer & T1 & T2).
  eapply walk_merged; eassumption.
Qed.

(** Two pages written as chunks with the same ids, renumbered with one allocator into a document whose page tree node is
    written last. *)
Definition page_chunk (calls : list ModelContent.ccall) : part :=
  PartWrite (PartWrite (PartNew false) 1 (PcTyped (Ck_page [Typed (Page_contents 2)]))) 2 (PcTyped (Ck_stream (content_of calls) [])).
Definition book : list merge_op := [
  MRenumber (page_chunk drawing) memo_state memo ([], 3);
  MRenumber (page_chunk closing) memo_state memo ([], 5);
  MDoc (DocTyped 2 (Ck_pages [Typed (Pages_kids [3; 5]); Typed (Pages_count 2)]));
  MDoc (DocCatalog 1 [Typed (Catalog_pages 2)])].
Definition book_tree : page_tree := PtNode 2 [PtPage 3 (OneStream drawing); PtPage 5 (OneStream closing)].
Example C62_case :
  Forall merge_op_ok book /\ ids_below (merge_ids book) /\ merge_catalog book = Some 1 /\
  In (MDoc (DocCatalog 1 [Typed (Catalog_pages 2)])) book /\
  root_given [Typed (Catalog_pages 2)] (tree_id book_tree) /\ tree_assembled no_filter book book_tree /\
  exists p file, merge_run book (pdf_with_settings true) = Some p /\ finish p = Some file /\ blen file <= 10 ^ 10 /\
    read_pages no_filter 3 file = Some [[([], lit "q"); ([VName (lit "P")], lit "scn")]; [([], lit "Q")]].
Proof.
  assert (I : merge_ids book = [3; 4; 5; 6; 2; 1]) by (vm_compute; reflexivity).
  assert (P : forall calls, part_ok (page_chunk calls)) by (intro calls; cbn [part_ok page_chunk]; repeat split).
  assert (PI : forall calls, part_ids (page_chunk calls) = [1; 2; 2]) by reflexivity.
  split.
  { constructor; [|constructor; [|constructor; [|constructor; [|constructor]]]]; cbn [merge_op_ok].
    - split; [apply P|]. rewrite PI. apply C60_closure_ok; vm_compute; congruence.
    - split; [apply P|]. rewrite PI. apply C60_closure_ok; vm_compute; congruence.
    - cbn [doc_op_ok]. split; reflexivity.
    - cbn [doc_op_ok]. split; reflexivity. }
  split; [rewrite I; unfold ids_below; repeat constructor|]. split; [reflexivity|]. split; [cbn [book In]; tauto|]. split; [reflexivity|].
  split.
  { cbn [tree_assembled book_tree map tree_id]. split.
    { exists 2, (fun n => n), [Typed (Pages_kids [3; 5]); Typed (Pages_count 2)], [3; 5].
      split; [right; right; right; right; left; reflexivity|]. repeat split. }
    split.
    { exists 1. eexists. exists [Typed (Page_contents 2)]. split; [left; reflexivity|]. split; [vm_compute; reflexivity|].
      exists 2. split; [reflexivity|]. exists 2. eexists. exists [], (content_of drawing), false. eexists. split; [right; left; reflexivity|].
      split; [vm_compute; reflexivity|]. split; [reflexivity|]. split; [reflexivity|]. exists None; split; reflexivity. }
    split; [|exact Logic.I].
    exists 1. eexists. exists [Typed (Page_contents 2)]. split; [right; right; left; reflexivity|]. split; [vm_compute; reflexivity|].
    exists 2. split; [reflexivity|]. exists 2. eexists. exists [], (content_of closing), false. eexists. split; [right; right; right; left; reflexivity|].
    split; [vm_compute; reflexivity|]. split; [reflexivity|]. split; [reflexivity|]. exists None; split; reflexivity. }
  assert (X : match merge_run book (pdf_with_settings true) with
              | Some p => match finish p with Some f => (blen f <=? 10 ^ 10, read_pages no_filter 3 f) | None => (false, None) end
              | None => (false, None) end = (true, Some [[([], lit "q"); ([VName (lit "P")], lit "scn")]; [([], lit "Q")]])) by (vm_compute; reflexivity).
  destruct (merge_run book (pdf_with_settings true)) as [p|]; [|discriminate].
  destruct (finish p) as [file|] eqn:F; [|discriminate]. exists p, file. split; [reflexivity|]. split; [exact F|].
  split; [apply Z.leb_le; exact (f_equal fst X)|exact (f_equal snd X)].
Qed.

Print Assumptions C62_assembled_pages_read_back.
Print Assumptions C62_assembled_pages_read_back_stream.
