(** C58: the pages of a document, from the trailer to the operations. *)

From Coq Require Import ZArith List Bool.
From Verif Require ModelCmap ModelContent SpecContent PropContent.
From Verif Require Import Bytes ModelFloat ModelBuf ModelObject ModelChunk ModelColor ModelSmall ModelPdf ModelTw ModelEnums ModelRoles ModelTwArgs
  ModelTwFiles ModelTwGraphics ModelTwAnnot ModelTwForms ModelTwAttr ModelTwXObj ModelTwFonts ModelTwDoc ModelFontDesc ModelDoc
  SpecLex SpecObj SpecText SpecMeans SpecRenum SpecChunk SpecFile SpecPdf SpecTyped SpecColor SpecSmall SpecTw SpecEnums SpecRoles SpecTwArgs
  SpecTwFiles SpecTwGraphics SpecTwAnnot SpecTwForms SpecTwAttr SpecTwXObj SpecTwFonts SpecTwDoc SpecFontDesc SpecDoc SpecPages
  ProofBasic ProofTw PropDoc PropPdf2.
Import ListNotations.
Local Open Scope Z_scope.

(** The entries of a dictionary under a key. *)
Definition entries_for (k : bytes) (xs : list entry_spec) : list entry_spec := List.filter (fun x => bytes_eqb k (fst x)) xs.
Definition entry_or_none (k : bytes) (P : option (val -> Prop)) : list entry_spec := match P with Some P => [(k, P)] | None => [] end.
(** From calls to entries. *)
Definition reading {A} (k : bytes) (P : A -> val -> Prop) (x : A + obj) : entry_spec := (k, match x with inl a => P a | inr o => means o end).
Lemma entries_for_app k xs ys : entries_for k (xs ++ ys) = entries_for k xs ++ entries_for k ys.
Proof. unfold entries_for. induction xs as [|x xs IH]; [reflexivity|]. cbn [app List.filter]. destruct (bytes_eqb k (fst x)); cbn [app]; rewrite IH; reflexivity. Qed.
Lemma given_entries {C A} k (sel : C -> list (A + obj)) P head doc calls :
  (forall c, entries_for k (doc c) = map (reading k P) (sel c)) ->
  entries_for k (writer_doc head doc calls) = entries_for k head ++ map (reading k P) (given_for k sel calls).
Proof.
  intro H. unfold writer_doc. rewrite entries_for_app. f_equal. unfold given_for.
  induction calls as [|c calls IH]; [reflexivity|]. cbn [flat_map]. rewrite entries_for_app, map_app, IH. f_equal.
  destruct c as [c|k' o]; cbn [raw_doc]; [apply H|]. unfold entries_for. cbn [List.filter fst].
  destruct (bytes_eqb k k') eqn:E; [|reflexivity]. apply bytes_eqb_spec in E. subst k'. reflexivity.
Qed.
Lemma called_entries {C A} k (sel : C -> list (A + obj)) P head doc calls a :
  entries_for k head = [] -> (forall c, entries_for k (doc c) = map (reading k P) (sel c)) ->
  called k sel calls a -> entries_for k (writer_doc head doc calls) = entry_or_none k (option_map P a).
Proof. intros H1 H2 H3. rewrite (given_entries k sel P head doc calls H2), H1, H3. destruct a; reflexivity. Qed.
Lemma stream_given_entries {S C A} k (ssel : S -> list (A + obj)) (sel : C -> list (A + obj)) P head sdoc doc calls :
  (forall c, entries_for k (sdoc c) = map (reading k P) (ssel c)) ->
  (forall c, entries_for k (doc c) = map (reading k P) (sel c)) ->
  entries_for k (head ++ flat_map (stream_doc sdoc doc) calls) = entries_for k head ++ map (reading k P) (stream_given_for k ssel sel calls).
Proof.
  intros H1 H2. rewrite entries_for_app. f_equal. unfold stream_given_for.
  induction calls as [|c calls IH]; [reflexivity|]. cbn [flat_map]. rewrite entries_for_app, map_app, IH. f_equal.
  destruct c as [c|c|k' o]; cbn [stream_doc]; [apply H2|apply H1|]. unfold entries_for. cbn [List.filter fst].
  destruct (bytes_eqb k k') eqn:E; [|reflexivity]. apply bytes_eqb_spec in E. subst k'. reflexivity.
Qed.
Lemma stream_called_entries {S C A} k (ssel : S -> list (A + obj)) (sel : C -> list (A + obj)) P head sdoc doc calls a :
  entries_for k head = [] -> (forall c, entries_for k (sdoc c) = map (reading k P) (ssel c)) ->
  (forall c, entries_for k (doc c) = map (reading k P) (sel c)) ->
  stream_called k ssel sel calls a -> entries_for k (head ++ flat_map (stream_doc sdoc doc) calls) = entry_or_none k (option_map P a).
Proof. intros H1 H2 H3 H4. rewrite (stream_given_entries k ssel sel P head sdoc doc calls H2 H3), H1, H4. destruct a; reflexivity. Qed.
(** [entries H W P]: from what was called to the entries, for the writer with this head and these entries per call. *)
Ltac each_call := let c := fresh in intro c; destruct c; reflexivity.
Tactic Notation "entries" hyp(H) constr(head) constr(doc) constr(P) :=
  apply (called_entries _ _ P head doc) in H; [cbn [option_map entry_or_none] in H|reflexivity|each_call].

Lemma bytes_eqb_refl b : bytes_eqb b b = true.
Proof. apply bytes_eqb_spec. reflexivity. Qed.
Lemma dict_lookup k P xs vs : is_dict xs (VDict vs) -> entries_for k xs = [(k, P)] -> exists v, lookup k vs = Some v /\ P v.
Proof.
  intros (d & E & F) K. injection E as <-. unfold entries_for in K.
  induction F as [|x e xs vs [A B] F IH]; [discriminate|].
  cbn [List.filter] in K. destruct e as [k' v]. cbn [fst snd lookup] in *. rewrite <- A in K.
  destruct (bytes_eqb k k').
  - exists v. split; [reflexivity|]. apply (f_equal (fun l => hd x l)) in K. cbn [hd] in K. subst x. exact B.
  - apply IH. exact K.
Qed.
Lemma dict_lookup_none k xs vs : is_dict xs (VDict vs) -> entries_for k xs = [] -> lookup k vs = None.
Proof.
  intros (d & E & F) K. injection E as <-. unfold entries_for in K.
  induction F as [|x e xs vs [A B] F IH]; [reflexivity|].
  cbn [List.filter] in K. destruct e as [k' v]. cbn [fst snd lookup] in *. rewrite <- A in K.
  destruct (bytes_eqb k k'); [discriminate|]. apply IH. exact K.
Qed.
Lemma dict_first k P xs vs : is_dict ((k, P) :: xs) (VDict vs) -> exists v, lookup k vs = Some v /\ P v.
Proof.
  intros (d & E & F). injection E as <-. inversion F as [|? [k' v] ? ? [A B] _]; subst. cbn [fst snd] in *. subst k'.
  exists v. cbn [lookup]. rewrite bytes_eqb_refl. split; [reflexivity|exact B].
Qed.
Lemma dict_is xs v : is_dict xs v -> exists vs, v = VDict vs.
Proof. intros (d & E & _). exists d. exact E. Qed.

Definition contents_are (x : Z + list Z) : val -> Prop := match x with inl id => is_ref id | inr ids => is_refs ids end.
Lemma contents_entry calls a : contents_given calls a ->
  entries_for (lit "Contents") (writer_doc Page_head Page_doc calls) = entry_or_none (lit "Contents") (option_map contents_are a).
Proof. intro H. unfold contents_given in H. entries H Page_head Page_doc contents_are. exact H. Qed.
Lemma kids_entry_of calls ids : kids_given calls ids ->
  entries_for (lit "Kids") (writer_doc Pages_head Pages_doc calls) = [(lit "Kids", is_refs ids)].
Proof. intro H. unfold kids_given in H. entries H Pages_head Pages_doc is_refs. exact H. Qed.
Lemma root_entry calls id : root_given calls id ->
  entries_for (lit "Pages") (writer_doc Catalog_head Catalog_doc calls) = [(lit "Pages", is_ref id)].
Proof. intro H. unfold root_given in H. entries H Catalog_head Catalog_doc is_ref. exact H. Qed.

Section Walk.
  Variables (decode : option val -> bytes -> option bytes) (resolved : Z -> option indirect) (ops : list doc_op).
  Hypothesis R : Forall (fun op => doc_op_reads op resolved) ops.

  Lemma found id c : In (DocTyped id c) ops -> exists i, resolved id = Some i /\ chunk_call_reads id c i.
  Proof. intro H. rewrite Forall_forall in R. exact (R _ H). Qed.

  Definition page_reads (calls : list ModelContent.ccall) (l : list operation) : Prop := Forall2 SpecContent.ccall_means calls l.

  Lemma stream_found cid data scalls content : In (DocTyped cid (Ck_stream data scalls)) ops -> stored decode scalls data content ->
    stream_content decode resolved cid = Some content.
  Proof.
    intros H (f & S1 & S2). destruct (found _ _ H) as (i & E & vs & -> & D). unfold stream_content. rewrite E.
    change (lookup (lit "Filter") ((lit "Length", VInt (blen data)) :: vs)) with (lookup (lit "Filter") vs).
    unfold Stream_reads in D. entries S1 Stream_head Stream_doc is_filter. destruct f as [f|].
    - destruct (dict_lookup _ _ _ _ D S1) as (v & L & P). rewrite L. unfold is_filter in P. subst v. exact S2.
    - rewrite (dict_lookup_none _ _ _ D S1). cbn [undone] in S2. subst. reflexivity.
  Qed.

  Lemma page_step n id calls ps : In (DocTyped id (Ck_page calls)) ops ->
    (forall d, is_dict (writer_doc Page_head Page_doc calls) (VDict d) -> page_operations decode resolved d = Some ps) ->
    pages_below decode resolved (S n) (VRef id 0) = Some [ps].
  Proof.
    intros H Q. destruct (found _ _ H) as (i & E & v & -> & D). destruct (dict_is _ _ D) as [d ->].
    cbn [pages_below]. rewrite E. destruct (dict_first _ _ _ _ D) as (t & L & P). rewrite L. unfold is_name in P. subst t.
    change (bytes_eqb (lit "Page") (lit "Pages")) with false. change (bytes_eqb (lit "Page") (lit "Page")) with true. cbv iota.
    rewrite (Q d D). reflexivity.
  Qed.

  Lemma refs_found cids : forall vs, Forall2 is_ref cids vs -> vs = map (fun r => VRef r 0) cids.
  Proof. intros vs Q. induction Q as [|r v l vs H Q IH]; [reflexivity|]. cbn [map]. unfold is_ref in H. subst v. f_equal. exact IH. Qed.

  (** What a reader finds in the streams of a page. *)
  Lemma content_found calls cid : content_written decode ops calls cid ->
    exists pretty out, stream_content decode resolved cid = Some out /\
      forallb (SpecContent.ccall_ok pretty) calls = true /\
      exists c, ModelContent.content_run calls (ModelContent.content_with_settings pretty) = Some c /\
        out = inner (ModelContent.content_finish c).
  Proof.
    intros (scalls & data & pretty & c & H1 & H2 & H3 & H4). exists pretty, (inner (ModelContent.content_finish c)).
    split; [apply (stream_found _ _ _ _ H1 H4)|]. split; [exact H2|]. exists c. split; [exact H3|reflexivity].
  Qed.
  Lemma contents_found l cids : Forall2 (content_written decode ops) l cids ->
    exists parts outs, map snd parts = l /\
      streams_content decode resolved (map (fun r => VRef r 0) cids) = Some outs /\
      Forall2 (fun part out => let '(pretty, calls) := part in
        forallb (SpecContent.ccall_ok pretty) calls = true /\
        exists c, ModelContent.content_run calls (ModelContent.content_with_settings pretty) = Some c /\
          out = inner (ModelContent.content_finish c)) parts outs.
  Proof.
    induction 1 as [|calls cid l cids W F (parts & outs & E1 & E2 & E3)].
    - exists [], []. repeat split. constructor.
    - destruct (content_found _ _ W) as (pretty & out & H1 & H2 & H3). exists ((pretty, calls) :: parts), (out :: outs).
      split; [cbn [map snd]; f_equal; exact E1|]. split; [cbn [map streams_content]; rewrite H1, E2; reflexivity|].
      constructor; [split; assumption|exact E3].
  Qed.
  Lemma flat_snd {A B} (l : list (A * list B)) : flat_map snd l = concat (map snd l).
  Proof. induction l as [|x l IH]; [reflexivity|]. cbn [flat_map map concat]. f_equal. exact IH. Qed.

  Fixpoint tree_depth (t : page_tree) : nat :=
    match t with PtPage _ _ => 1%nat | PtNode _ kids => S (fold_right Nat.max 0%nat (map tree_depth kids)) end.

  Lemma walk_tree : forall t, tree_written decode ops t ->
    exists pages, Forall2 page_reads (tree_pages t) pages /\
      forall n, (tree_depth t <= n)%nat -> pages_below decode resolved n (VRef (tree_id t) 0) = Some pages.
  Proof.
    fix IH 1. intros [id contents|id kids] W; cbn [tree_written tree_pages tree_id tree_depth] in *.
    - destruct W as (calls & H1 & H2).
      enough (X : exists l, page_reads (contents_calls contents) l /\
        forall d, is_dict (writer_doc Page_head Page_doc calls) (VDict d) -> page_operations decode resolved d = Some l).
      { destruct X as (l & M & P). exists [l]. split; [constructor; [exact M|constructor]|]. intros [|n] L; [inversion L|].
        apply (page_step n id calls l H1). exact P. }
      destruct contents as [|content|l]; cbn [contents_calls contents_written] in *.
      + apply contents_entry in H2; cbn [option_map entry_or_none contents_are] in H2. exists []. split; [constructor|]. intros d D. unfold page_operations. rewrite (dict_lookup_none _ _ _ D H2). reflexivity.
      + destruct H2 as (cid & H2 & H3). apply contents_entry in H2; cbn [option_map entry_or_none contents_are] in H2. destruct (content_found _ _ H3) as (pretty & out & E1 & E2 & c & E3 & ->).
        destruct (PropContent.C36_finish_keeps_operations pretty content c E2 E3) as (_ & l & P & M).
        exists l. split; [exact M|]. intros d D. destruct (dict_lookup _ _ _ _ D H2) as (v & K & Q). unfold is_ref in Q. subst v.
        unfold page_operations. rewrite K, E1. exact P.
      + destruct H2 as (cids & H2 & H3). apply contents_entry in H2; cbn [option_map entry_or_none contents_are] in H2. destruct (contents_found _ _ H3) as (parts & outs & <- & E2 & E3).
        destruct (PropContent.C36_split_over_streams parts outs E3) as (l & P & M). rewrite flat_snd in M.
        exists l. split; [exact M|]. intros d D. destruct (dict_lookup _ _ _ _ D H2) as (v & K & vs & -> & Q).
        apply refs_found in Q. subst vs. unfold page_operations. rewrite K, E2. exact P.
    - destruct W as [(calls & H1 & H2) W]. apply kids_entry_of in H2.
      assert (A : exists pages, Forall2 page_reads (flat_map tree_pages kids) pages /\
        forall n, (fold_right Nat.max 0 (map tree_depth kids) <= n)%nat ->
          concat_all (map (pages_below decode resolved n) (map (fun r => VRef r 0) (map tree_id kids))) = Some pages).
      { clear H2. induction kids as [|t kids IHk]; [exists []; split; [constructor|reflexivity]|].
        destruct W as [W1 W2]. destruct (IH t W1) as (p1 & F1 & D1). destruct (IHk W2) as (p2 & F2 & D2).
        exists (p1 ++ p2). split; [apply Forall2_app; assumption|]. intros n L. cbn [map fold_right] in L. cbn [map concat_all].
        rewrite D1 by (etransitivity; [apply Nat.le_max_l|exact L]). rewrite D2 by (etransitivity; [apply Nat.le_max_r|exact L]). reflexivity. }
      destruct A as (pages & F & D). exists pages. split; [exact F|]. intros [|n] L; [inversion L|]. apply le_S_n in L.
      destruct (found _ _ H1) as (i & E & v & -> & X). destruct (dict_is _ _ X) as [d ->].
      cbn [pages_below]. rewrite E. destruct (dict_first _ _ _ _ X) as (t & L1 & P). rewrite L1. unfold is_name in P. subst t.
      change (bytes_eqb (lit "Pages") (lit "Pages")) with true. cbv iota.
      destruct (dict_lookup _ _ _ _ X H2) as (v & L2 & vs & -> & Q). rewrite L2. apply refs_found in Q. subst vs. exact (D n L).
  Qed.
End Walk.

Lemma walk_file decode ops file cat calls tree entries trailer :
  Forall (fun op => doc_op_reads op (resolve decode file)) ops ->
  read_file decode file = Some (entries, trailer) -> lookup (lit "Root") trailer = Some (VRef cat 0) ->
  In (DocCatalog cat calls) ops ->
  root_given calls (tree_id tree) ->
  tree_written decode ops tree ->
  exists pages depth, Forall2 page_reads (tree_pages tree) pages /\
    forall n, (depth <= n)%nat -> read_pages decode n file = Some pages.
Proof.
  intros X T1 T2 I E W. apply root_entry in E.
  destruct (walk_tree decode (resolve decode file) ops X tree W) as (pages & F2 & D).
  exists pages, (tree_depth tree). split; [exact F2|]. intros n Hn. unfold read_pages. rewrite T1, T2.
  rewrite Forall_forall in X. destruct (X _ I) as (i & E1 & v & -> & M). rewrite E1. destruct (dict_is _ _ M) as [d ->].
  destruct (dict_lookup _ _ _ _ M E) as (v & L1 & P). rewrite L1. unfold is_ref in P. subst v. apply D. exact Hn.
Qed.

(** A document with a page tree of any shape and size, among any other objects, in any order: a reader that follows the
    trailer, the catalog and the page tree finds the pages from left to right, each with the operations that were asked for. *)
Theorem C58_pages_read_back : forall decode pretty ops p file cat calls tree,
  Forall doc_op_ok ops -> doc_run ops (pdf_with_settings pretty) = Some p -> finish p = Some file ->
  ids_below (doc_ids ops) -> blen file <= 10 ^ 10 ->
  doc_catalog ops = Some cat -> In (DocCatalog cat calls) ops ->
  root_given calls (tree_id tree) ->
  tree_written decode ops tree ->
  exists pages depth, Forall2 page_reads (tree_pages tree) pages /\
    forall n, (depth <= n)%nat -> read_pages decode n file = Some pages.
Proof.
  intros decode pretty ops p file cat calls tree K R F B L C I E W.
  destruct (C57_typed_objects_are_found decode pretty ops p file K R F B L) as [X _].
  destruct (C57_root decode pretty ops p file cat K R F B L C) as (entries & trailer & T1 & T2).
  eapply walk_file; eassumption.
Qed.
(** The same for a file with a cross-reference stream, with or without a filter. *)
Theorem C58_pages_read_back_stream : forall decode pretty ops p xref_id file cat calls tree,
  Forall doc_op_ok ops -> doc_run ops (pdf_with_settings pretty) = Some p ->
  id_ok xref_id = true -> ids_below (xref_id :: doc_ids ops) ->
  finished_with_stream decode p xref_id file -> blen file < 2 ^ 64 ->
  doc_catalog ops = Some cat -> In (DocCatalog cat calls) ops ->
  root_given calls (tree_id tree) ->
  tree_written decode ops tree ->
  exists pages depth, Forall2 page_reads (tree_pages tree) pages /\
    forall n, (depth <= n)%nat -> read_pages decode n file = Some pages.
Proof.
  intros decode pretty ops p xref_id file cat calls tree K R I B F L C Ic E W.
  destruct (C57_typed_objects_are_found_stream decode pretty ops p xref_id file K R I B F L) as [X _].
  destruct (C57_root_stream decode pretty ops p xref_id file cat K R I B F L C) as (entries & trailer & T1 & T2).
  eapply walk_file; eassumption.
Qed.

(** A tree with two levels: a page with one stream, a nested node with a page with two streams and an empty page; the
    objects are written in no particular order, and the second catalog counts. *)
Definition drawing : list ModelContent.ccall := [ModelContent.CSaveState; ModelContent.CSetFillPattern [] (lit "P")].
Definition closing : list ModelContent.ccall := [ModelContent.CRestoreState].
Definition content_of (calls : list ModelContent.ccall) : bytes :=
  match ModelContent.content_run calls (ModelContent.content_with_settings false) with
  | Some c => inner (ModelContent.content_finish c)
  | None => []
  end.
Definition pages_sample : list doc_op := [
  DocTyped 4 (Ck_page [Typed (Page_parent 2); Typed (Page_contents 7)]);
  DocCatalog 1 [];
  DocTyped 7 (Ck_stream (content_of drawing) []);
  DocTyped 6 (Ck_page [Typed (Page_contents_array [8; 7])]);
  DocTyped 2 (Ck_pages [Typed (Pages_kids [4; 5]); Typed (Pages_count 3)]);
  DocTyped 8 (Ck_stream (content_of closing) []);
  DocTyped 9 (Ck_page []);
  DocTyped 5 (Ck_pages [Typed (Pages_count 2); Typed (Pages_kids [6; 9])]);
  DocCatalog 3 [Typed (Catalog_pages 2)]].
Definition tree_sample : page_tree :=
  PtNode 2 [PtPage 4 (OneStream drawing); PtNode 5 [PtPage 6 (Streams [closing; drawing]); PtPage 9 NoContents]].
Example C58_case :
  Forall doc_op_ok pages_sample /\ ids_below (doc_ids pages_sample) /\ doc_catalog pages_sample = Some 3 /\
  In (DocCatalog 3 [Typed (Catalog_pages 2)]) pages_sample /\
  root_given [Typed (Catalog_pages 2)] (tree_id tree_sample) /\
  tree_written no_filter pages_sample tree_sample /\
  exists p file, doc_run pages_sample (pdf_with_settings true) = Some p /\ finish p = Some file /\ blen file <= 10 ^ 10 /\
    read_pages no_filter 3 file = Some [
      [([], lit "q"); ([VName (lit "P")], lit "scn")];
      [([], lit "Q"); ([], lit "q"); ([VName (lit "P")], lit "scn")];
      []].
Proof.
  split; [repeat (apply Forall_cons; [cbn [doc_op_ok op_typed]; repeat split|]); apply Forall_nil|].
  split; [unfold ids_below; repeat constructor|]. split; [reflexivity|]. split; [cbn [pages_sample In]; tauto|]. split; [reflexivity|].
  assert (D : content_written no_filter pages_sample drawing 7).
  { exists [], (content_of drawing), false. eexists. split; [cbn [pages_sample In]; tauto|]. split; [reflexivity|]. split; [reflexivity|].
    exists None; split; reflexivity. }
  assert (E : content_written no_filter pages_sample closing 8).
  { exists [], (content_of closing), false. eexists. split; [cbn [pages_sample In]; tauto|]. split; [reflexivity|]. split; [reflexivity|].
    exists None; split; reflexivity. }
  split.
  { cbn [tree_written tree_sample map tree_id]. split; [exists [Typed (Pages_kids [4; 5]); Typed (Pages_count 3)]; split; [cbn [pages_sample In]; tauto|reflexivity]|].
    split; [exists [Typed (Page_parent 2); Typed (Page_contents 7)]; split; [cbn [pages_sample In]; tauto|exists 7; split; [reflexivity|exact D]]|].
    split; [|exact I]. split; [exists [Typed (Pages_count 2); Typed (Pages_kids [6; 9])]; split; [cbn [pages_sample In]; tauto|reflexivity]|].
    split; [exists [Typed (Page_contents_array [8; 7])]; split; [cbn [pages_sample In]; tauto|exists [8; 7]; split; [reflexivity|repeat constructor; assumption]]|].
    split; [|exact I]. exists []; split; [cbn [pages_sample In]; tauto|reflexivity]. }
  assert (X : match doc_run pages_sample (pdf_with_settings true) with
              | Some p => match finish p with Some f => (blen f <=? 10 ^ 10, read_pages no_filter 3 f) | None => (false, None) end
              | None => (false, None) end = (true, Some [
      [([], lit "q"); ([VName (lit "P")], lit "scn")];
      [([], lit "Q"); ([], lit "q"); ([VName (lit "P")], lit "scn")];
      []])) by (vm_compute; reflexivity).
  destruct (doc_run pages_sample (pdf_with_settings true)) as [p|]; [|discriminate].
  destruct (finish p) as [file|] eqn:F; [|discriminate]. exists p, file. split; [reflexivity|]. split; [exact F|].
  split; [apply Z.leb_le; exact (f_equal fst X)|exact (f_equal snd X)].
Qed.

Print Assumptions C58_pages_read_back.
Print Assumptions C58_pages_read_back_stream.
