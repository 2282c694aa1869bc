(** C74: the properties of a document. *)

From Coq Require Import ZArith List Bool Lia.
From Verif Require ModelCmap ModelContent SpecContent ProofAssembled PropPdf.
From Verif Require Import Bytes ModelFloat ModelBuf ModelObject ModelChunk ModelColor ModelSmall ModelPdf ModelTw ModelEnums ModelRoles ModelTwArgs
  ModelTwFiles ModelTwGraphics ModelTwAnnot ModelTwForms ModelTwAttr ModelTwXObj ModelTwFonts ModelTwDoc ModelFontDesc ModelDoc
  SpecLex SpecObj SpecText SpecMeans SpecRenum SpecChunk SpecFile SpecPdf SpecTyped SpecColor SpecSmall SpecTw SpecEnums SpecRoles SpecTwArgs
  SpecTwFiles SpecTwGraphics SpecTwAnnot SpecTwForms SpecTwAttr SpecTwXObj SpecTwFonts SpecTwDoc SpecFontDesc SpecDoc SpecPages SpecExtract SpecNav SpecViews SpecInfo
  ProofBasic ProofTree ProofTyped ProofTw ProofTwDoc PropDoc PropPdf2 PropPages PropExtract PropNav PropPaint ProofColor.
Import ListNotations.
Local Open Scope Z_scope.

(** ** The calls on the document itself *)
Lemma last_plain {A} (f : doc_op -> option A) (g : pdf_op -> option A) ops l : all_some doc_op_plain ops = Some l ->
  (forall op q, doc_op_plain op = Some q -> f op = g q) -> last_call g l = doc_last f ops.
Proof.
  intros E H. apply all_some_forall2 in E. unfold last_call, doc_last.
  match goal with |- fold_left ?f l None = fold_left ?g ops None => enough (G : forall a, fold_left f l a = fold_left g ops a) by apply G end.
  induction E as [|op q ops l E F IH]; intro a; [reflexivity|]. cbn [fold_left]. rewrite IH. rewrite (H op q E). reflexivity.
Qed.
Ltac plain_case := intros [id c|id calls|id calls|op] q E; cbn [doc_op_plain] in E;
  [destruct (chunk_call_body c) as [[]|]; try discriminate; apply some_inj in E; subst q; reflexivity
  |destruct (writer_list_opt [] Catalog_entries calls); [|discriminate]; apply some_inj in E; subst q; reflexivity
  |apply some_inj in E; subst q; reflexivity
  |apply some_inj in E; subst q; destruct op; reflexivity].
Lemma last_below {A} (f : pdf_op -> option A) (P : A -> Prop) l : Forall (fun op => forall a, f op = Some a -> P a) l ->
  forall a, last_call f l = Some a -> P a.
Proof.
  unfold last_call. intros F.
  enough (G : forall b, (forall a, b = Some a -> P a) -> forall a, fold_left (fun a op => match f op with Some x => Some x | None => a end) l b = Some a -> P a)
    by (apply G; discriminate).
  induction F as [|op l H F IH]; intros b B; [exact B|]. cbn [fold_left]. apply IH. destruct (f op) as [x|] eqn:E; [|exact B].
  intros a Ha. apply some_inj in Ha. subst x. exact (H a eq_refl).
Qed.
Lemma plain_document ops l : all_some doc_op_plain ops = Some l -> ops_typed l ->
  info_of l = doc_info ops /\ file_id_of l = doc_file_id ops /\ major_of l = doc_major ops /\ minor_of l = doc_minor ops /\
  0 <= major_of l < 10 /\ 0 <= minor_of l < 10.
Proof.
  intros A T. split; [apply (last_plain _ _ _ _ A); plain_case|]. split; [apply (last_plain _ _ _ _ A); plain_case|].
  split; [unfold major_of, doc_major; match goal with |- match last_call ?g l with _ => _ end = match doc_last ?f ops with _ => _ end => rewrite (last_plain f g _ _ A) by plain_case end; reflexivity|].
  split; [unfold minor_of, doc_minor; match goal with |- match last_call ?g l with _ => _ end = match doc_last ?f ops with _ => _ end => rewrite (last_plain f g _ _ A) by plain_case end; reflexivity|].
  split.
  - unfold major_of. match goal with |- context [last_call ?f l] => destruct (last_call f l) as [m|] eqn:E; [|lia];
      apply (last_below f (fun m => 0 <= m < 10) l) in E; [exact E|] end.
    eapply Forall_impl; [|exact T]. intros op H a Ha. destruct op; try discriminate. cbn [op_typed] in H.
    destruct (major <? 10) eqn:L; [|discriminate]. apply some_inj in Ha. lia.
  - unfold minor_of. match goal with |- context [last_call ?f l] => destruct (last_call f l) as [m|] eqn:E; [|lia];
      apply (last_below f (fun m => 0 <= m < 10) l) in E; [exact E|] end.
    eapply Forall_impl; [|exact T]. intros op H a Ha. destruct op; try discriminate. cbn [op_typed] in H.
    destruct (minor <? 10) eqn:L; [|discriminate]. apply some_inj in Ha. lia.
Qed.
Lemma document_trailer decode ops cat file : finished_document decode ops cat file ->
  exists entries trailer rest, read_file decode file = Some (entries, trailer) /\
    lookup (lit "Info") trailer = option_map (fun id => VRef id 0) (doc_info ops) /\
    lookup (lit "ID") trailer = option_map (fun ab => VArr [VStr (fst ab); VStr (snd ab)]) (doc_file_id ops) /\
    file = lit "%PDF-" ++ [zb (48 + doc_major ops)] ++ lit "." ++ [zb (48 + doc_minor ops)] ++ [x0a] ++ rest /\
    0 <= doc_major ops < 10 /\ 0 <= doc_minor ops < 10.
Proof.
  intros D.
  assert (X : exists l body section entries trailer, all_some doc_op_plain ops = Some l /\ ops_typed l /\ file = header_of l ++ body ++ section /\
    read_file decode file = Some (entries, trailer) /\
    lookup (lit "Info") trailer = trailer_value l (lit "Info") /\ lookup (lit "ID") trailer = trailer_value l (lit "ID")).
  { destruct D as [pretty p K R F B L C|pretty p xref_id K R I B F L C|pretty mops p -> K R F B L C|pretty mops p xref_id -> K R I B F L C].
    3, 4: destruct (ProofAssembled.effective_document mops pretty p K R) as (l & le & S1 & S2 & _ & S4 & S5 & S6 & _ & _ & _ & _ & S7 & S8); rewrite <- S6 in B; exists le.
    1, 2: apply doc_run_plain in R as (l & A & R); destruct (doc_ops_spec ops l K A) as (S1 & S2 & _); rewrite <- S2 in *; exists l.
    - destruct (C29_finish decode pretty l p file S1 R F B L) as (body & section & entries & trailer & _ & E & _ & _ & _ & _ & E2 & _ & T).
      exists body, section, entries, trailer. split; [exact A|]. split; [exact S1|]. split; [exact E|]. split; [exact E2|].
      split; apply T; discriminate.
    - destruct (C29_stream decode pretty l p xref_id file S1 R I B F L) as (body & section & entries & trailer & _ & E & _ & _ & _ & E2 & _ & _ & T).
      exists body, section, entries, trailer. split; [exact A|]. split; [exact S1|]. split; [exact E|]. split; [exact E2|].
      split; (apply T; [discriminate|]; unfold stream_keys; cbn [In]; intros [H|[H|[H|[H|[]]]]]; discriminate H).
    - destruct (C29_finish decode pretty l p file S1 S2 F B L) as (body & section & entries & trailer & _ & E & _ & _ & _ & _ & E2 & _ & T).
      exists body, section, entries, trailer. split; [exact S4|]. split; [exact S5|]. split; [rewrite <- S7; exact E|]. split; [exact E2|].
      split; rewrite <- S8; apply T; discriminate.
    - destruct (C29_stream decode pretty l p xref_id file S1 S2 I B F L) as (body & section & entries & trailer & _ & E & _ & _ & _ & E2 & _ & _ & T).
      exists body, section, entries, trailer. split; [exact S4|]. split; [exact S5|]. split; [rewrite <- S7; exact E|]. split; [exact E2|].
      split; rewrite <- S8; (apply T; [discriminate|]; unfold stream_keys; cbn [In]; intros [H|[H|[H|[H|[]]]]]; discriminate H). }
  destruct X as (l & body & section & entries & trailer & A & T & E & RF & T1 & T2).
  destruct (plain_document ops l A T) as (P1 & P2 & P3 & P4 & P5 & P6).
  unfold header_of in E. destruct (marker_of l) as [[[m1 m2] m3] m4].
  exists entries, trailer. eexists. split; [exact RF|]. rewrite <- P1, <- P2, <- P3, <- P4.
  split; [exact T1|]. split; [exact T2|]. split; [|split; assumption].
  rewrite E. rewrite <- !app_assoc. reflexivity.
Qed.
Lemma digit_of m : 0 <= m < 10 -> is_digit (zb (48 + m)) = true /\ digits_val [zb (48 + m)] = m.
Proof. intro H. unfold is_digit, digits_val. cbn [fold_left]. rewrite bz_zb by lia. split; lia. Qed.
Lemma version_number a b : a <> [] -> b <> [] -> forallb is_digit a = true -> forallb is_digit b = true ->
  read_version_number (a ++ lit "." ++ b) = Some (digits_val a, digits_val b).
Proof.
  intros Na Nb A B. unfold read_version_number. rewrite (span_all is_digit a (lit "." ++ b) A eq_refl). cbn [lit app].
  change (Byte.eqb x2e x2e) with true. cbv iota.
  assert (D : forall s, s <> [] -> forallb is_digit s = true -> read_decimal s = Some (digits_val s)).
  { intros s N S. unfold read_decimal. rewrite S. destruct s; [congruence|reflexivity]. }
  change (lit "." ++ b) with (x2e :: b). cbv iota beta. change (Byte.eqb x2e x2e) with true. cbv iota.
  rewrite (D a Na A), (D b Nb B). reflexivity.
Qed.
Lemma header_found a b rest : 0 <= a < 10 -> 0 <= b < 10 ->
  header_version (lit "%PDF-" ++ [zb (48 + a)] ++ lit "." ++ [zb (48 + b)] ++ [x0a] ++ rest) = Some (a, b).
Proof.
  intros A B. destruct (digit_of a A) as [A1 A2]. destruct (digit_of b B) as [B1 B2]. unfold header_version.
  assert (N : forall m, 0 <= m < 10 -> negb (Byte.eqb (zb (48 + m)) x0a) = true).
  { intros m H. destruct (Byte.eqb (zb (48 + m)) x0a) eqn:E; [|reflexivity]. apply Byte.byte_dec_bl in E.
    apply (f_equal bz) in E. rewrite bz_zb in E by lia. change (bz x0a) with 10 in E. lia. }
  assert (S : forall x, strip (lit "%PDF-") (lit "%PDF-" ++ x) = Some x) by reflexivity.
  rewrite S. cbn [bind].
  replace ([zb (48 + a)] ++ lit "." ++ [zb (48 + b)] ++ [x0a] ++ rest) with (([zb (48 + a)] ++ lit "." ++ [zb (48 + b)]) ++ x0a :: rest)
    by (rewrite <- !app_assoc; reflexivity).
  rewrite span_all; [|cbn [app forallb lit]|reflexivity].
  2:{ change (forallb (fun c => negb (Byte.eqb c x0a)) ([zb (48 + a)] ++ [x2e] ++ [zb (48 + b)]) = true). cbn [app forallb].
      rewrite (N a A), (N b B). reflexivity. }
  cbn [fst]. rewrite version_number; [rewrite A2, B2; reflexivity|discriminate|discriminate| |];
    cbn [forallb]; [rewrite A1|rewrite B1]; reflexivity.
Qed.

(** ** The dictionaries *)
Lemma named_found {X} (table : list (bytes * X)) x v : is_named table x v -> named table v = Some x.
Proof. intros (n & -> & B). exact B. Qed.
Lemma date_found d v : is_date_of d v -> read_date v = Some (date_reading d).
Proof. intros (s & -> & B). exact B. Qed.
Lemma version_found a b v : is_version a b v -> bind (read_name v) read_version_number = Some (a, b).
Proof. intros (x & y & -> & N1 & N2 & D1 & D2 & V1 & V2). cbn [read_name bind]. rewrite version_number by assumption. rewrite V1, V2. reflexivity. Qed.
Lemma option_found k {A B} (P : A -> val -> Prop) (g : A -> B) (f : val -> option B) xs d (x : option A) : is_dict xs (VDict d) ->
  entries_for k xs = entry_or_none k (option_map P x) -> (forall a v, P a v -> f v = Some (g a)) -> optional k d f = Some (option_map g x).
Proof.
  intros D X F. apply (optional_found k _ xs d f (option_map g x) D X). destruct x as [a|]; cbn [option_map]; [|exact Logic.I].
  intros v Hv. exact (F a v Hv).
Qed.
Lemma same_found k {A} (P : A -> val -> Prop) (f : val -> option A) xs d (x : option A) : is_dict xs (VDict d) ->
  entries_for k xs = entry_or_none k (option_map P x) -> (forall a v, P a v -> f v = Some a) -> optional k d f = Some x.
Proof.
  intros D X F. rewrite (option_found k P (fun a => a) f xs d x D X F). destruct x; reflexivity.
Qed.
Lemma plain_text_found t v : is_textlike (TextPlain t) v -> read_textstring v = Some t.
Proof. apply text_found. Qed.

Lemma map_plain t : option_map is_textlike (option_map TextPlain t) = option_map (fun t => is_textlike (TextPlain t)) t.
Proof. destruct t; reflexivity. Qed.

Section Properties.
  Variables (decode : option val -> bytes -> option bytes) (resolved : Z -> option indirect) (ops : list doc_op).
  Hypothesis R : Forall (fun op => doc_op_reads op resolved) ops.

  Lemma info_found id calls a : In (DocInfo id calls) ops ->
    info_given calls a ->
    read_info resolved (VRef id 0) = Some (asked_info a).
  Proof using R.
    intros I (W1 & W2 & W3 & W4 & W5 & W6 & W7 & W8 & W9).
    entries W1 DocumentInfo_head DocumentInfo_doc is_textlike. entries W2 DocumentInfo_head DocumentInfo_doc is_textlike.
    entries W3 DocumentInfo_head DocumentInfo_doc is_textlike. entries W4 DocumentInfo_head DocumentInfo_doc is_textlike.
    entries W5 DocumentInfo_head DocumentInfo_doc is_textlike. entries W6 DocumentInfo_head DocumentInfo_doc is_textlike.
    entries W7 DocumentInfo_head DocumentInfo_doc is_date_of. entries W8 DocumentInfo_head DocumentInfo_doc is_date_of.
    entries W9 DocumentInfo_head DocumentInfo_doc is_TrappingStatus.
 pose proof R as R'. rewrite Forall_forall in R'.
    destruct (R' _ I) as (i & E1 & v & -> & M). destruct (dict_is _ _ M) as [d ->].
    unfold read_info. cbn [object_dict]. rewrite E1. cbn [bind]. cbv zeta. rewrite map_plain in W1, W2, W3, W4, W5, W6.
    rewrite (same_found _ (fun t => is_textlike (TextPlain t)) read_textstring _ d (ia_title a) M W1 plain_text_found). cbn [bind].
    rewrite (same_found _ (fun t => is_textlike (TextPlain t)) read_textstring _ d (ia_author a) M W2 plain_text_found). cbn [bind].
    rewrite (same_found _ (fun t => is_textlike (TextPlain t)) read_textstring _ d (ia_subject a) M W3 plain_text_found). cbn [bind].
    rewrite (same_found _ (fun t => is_textlike (TextPlain t)) read_textstring _ d (ia_keywords a) M W4 plain_text_found). cbn [bind].
    rewrite (same_found _ (fun t => is_textlike (TextPlain t)) read_textstring _ d (ia_creator a) M W5 plain_text_found). cbn [bind].
    rewrite (same_found _ (fun t => is_textlike (TextPlain t)) read_textstring _ d (ia_producer a) M W6 plain_text_found). cbn [bind].
    rewrite (option_found _ is_date_of date_reading read_date _ d (ia_created a) M W7 date_found). cbn [bind].
    rewrite (option_found _ is_date_of date_reading read_date _ d (ia_modified a) M W8 date_found). cbn [bind].
    rewrite (same_found _ is_TrappingStatus (named TrappingStatus_table) _ d (ia_trapped a) M W9 (named_found _)). cbn [bind].
    reflexivity.
  Qed.
  Lemma metadata_found catalog d content : is_dict (writer_doc Catalog_head Catalog_doc catalog) (VDict d) -> metadata_written decode ops catalog content ->
    optional (lit "Metadata") d (fun v => bind (read_id v) (stream_content decode resolved)) = Some content.
  Proof using R.
    intros D W. destruct content as [content|]; cbn [metadata_written] in W.
    - destruct W as (id & data & calls & X & I & S). entries X Catalog_head Catalog_doc is_ref.
      apply (stored_with_entries decode Metadata_head Metadata_doc) in S; [|reflexivity|each_call].
      apply (optional_found (lit "Metadata") (Some (is_ref id)) _ d _ (Some content) D X).
      intros v ->. cbn [read_id bind].
      destruct (found resolved ops R _ _ I) as (i & E & vs & -> & Dv).
      exact (stream_with_found decode resolved id _ data content vs E Dv S).
    - entries W Catalog_head Catalog_doc is_ref. exact (optional_found (lit "Metadata") None _ d _ None D W Logic.I).
  Qed.
End Properties.

(** A reader finds the document's properties. *)
Theorem C74_properties : forall decode ops cat file calls a, finished_document decode ops cat file -> In (DocCatalog cat calls) ops ->
  properties_written decode ops calls a ->
  read_properties decode file = Some (asked_properties ops a).
Proof.
  intros decode ops cat file calls a D I (W1 & W2 & W3 & W4 & W5 & W6).
  entries W1 Catalog_head Catalog_doc (fun v : Z * Z => is_version (fst v) (snd v)). entries W4 Catalog_head Catalog_doc is_text.
  entries W5 Catalog_head Catalog_doc is_PageLayout. entries W6 Catalog_head Catalog_doc is_PageMode.
  destruct (document_facts _ _ _ _ D) as (R & _).
  destruct (document_trailer _ _ _ _ D) as (entries & trailer & rest & E & T1 & T2 & H & M1 & M2).
  destruct (catalog_found _ _ _ _ _ D I) as (c & C & M).
  unfold read_properties. rewrite H at 1. rewrite (header_found _ _ _ M1 M2). cbn [bind]. rewrite E. cbn [bind snd]. cbv zeta.
  replace (optional (lit "ID") trailer read_file_id) with (Some (doc_file_id ops))
    by (unfold optional; rewrite T2; destruct (doc_file_id ops) as [[x y]|]; reflexivity).
  cbn [bind].
  replace (optional (lit "Info") trailer (read_info (resolve decode file))) with (Some (option_map asked_info (pa_info a))).
  2:{ unfold optional. rewrite T1. unfold info_written in W2. destruct (pa_info a) as [ia|], (doc_info ops) as [id|]; try contradiction; [|reflexivity].
      destruct W2 as (icalls & Ii & Wi). cbn [option_map]. rewrite (info_found _ _ R id icalls ia Ii Wi). reflexivity. }
  cbn [bind]. rewrite C. cbn [bind].
  rewrite (same_found _ (fun v => is_version (fst v) (snd v)) _ _ c (pa_version a) M W1)
    by (intros [x y] v Hv; exact (version_found x y v Hv)). cbn [bind].
  rewrite (metadata_found _ _ _ R _ c (pa_metadata a) M W3). cbn [bind].
  rewrite (same_found _ is_text read_textstring _ c (pa_lang a) M W4 text_found). cbn [bind].
  rewrite (same_found _ is_PageLayout (named PageLayout_table) _ c (pa_layout a) M W5 (named_found _)). cbn [bind].
  rewrite (same_found _ is_PageMode (named PageMode_table) _ c (pa_mode a) M W6 (named_found _)). cbn [bind].
  reflexivity.
Qed.

(** ** A concrete case *)
Definition info_catalog : Catalog_calls := [Typed (Catalog_pages 2); Typed (Catalog_lang [100; 101]); Typed (Catalog_version 2 1); Typed (Catalog_metadata 4);
  Typed (Catalog_page_mode PageMode_UseOutlines)].
Definition info_date : date := mkDate 2024 (Some 2) (Some 29) (Some 12) None None None 0.
Definition info_sample : list doc_op := [
  DocTyped 2 (Ck_pages []);
  DocInfo 5 [Typed (DocumentInfo_title (TextPlain [68; 8364])); Typed (DocumentInfo_creation_date info_date); Typed (DocumentInfo_trapped TrappingStatus_Unknown)];
  DocTyped 4 (Ck_metadata (lit "<x/>") []);
  DocCatalog 1 info_catalog;
  DocOther (PdfVersion 2 0); DocOther (PdfVersion 10 4); DocOther (PdfFileId (lit "a)", lit "b"))].
Definition info_request : properties_asked := mkAskedProperties (Some (2, 1))
  (Some (mkAskedInfo (Some [68; 8364]) None None None None None (Some info_date) None (Some TrappingStatus_Unknown)))
  (Some (lit "<x/>")) (Some [100; 101]) None (Some PageMode_UseOutlines).
Definition info_result : properties := mkProperties (2, 4) (Some (lit "a)", lit "b"))
  (Some (mkInfo (Some [68; 8364]) None None None None None (Some (date_reading info_date)) None (Some TrappingStatus_Unknown)))
  (Some (lit "<x/>")) (Some [100; 101]) None (Some PageMode_UseOutlines).
(** The header says 2.4 (10 is ignored, 4 is not), which is later than the catalog's 2.1. *)
Example C74_case : properties_written no_filter info_sample info_catalog info_request /\
  asked_properties info_sample info_request = info_result.
Proof.
  split; [|reflexivity]. split; [reflexivity|]. split.
  { eexists. split; [right; left; reflexivity|]. cbv zeta. repeat split; reflexivity. }
  split.
  { exists 4, (lit "<x/>"), []. split; [reflexivity|]. split; [do 2 right; left; reflexivity|]. exists None. split; reflexivity. }
  split; [reflexivity|]. split; reflexivity.
Qed.
Example C74_file : exists file, finished_document no_filter info_sample 1 file /\ read_properties no_filter file = Some info_result.
Proof.
  assert (X : match doc_run info_sample (pdf_with_settings true) with
              | Some p => match finish p with Some f => (blen f <=? 10 ^ 10, read_properties no_filter f) | None => (false, None) end
              | None => (false, None) end = (true, Some info_result)) by (vm_compute; reflexivity).
  destruct (doc_run info_sample (pdf_with_settings true)) as [p|] eqn:R; [|discriminate].
  destruct (finish p) as [file|] eqn:F; [|discriminate]. exists file.
  split; [apply (finished_table _ _ _ _ true p); [|exact R|exact F| |apply Z.leb_le; exact (f_equal fst X)|reflexivity]|].
  - repeat (apply Forall_cons; [cbn [doc_op_ok op_typed]; repeat split; try reflexivity; try lia|]); apply Forall_nil.
  - unfold ids_below; repeat constructor.
  - exact (f_equal snd X).
Qed.

Print Assumptions C74_properties.
