(** C85: how a document is to be shown and printed, from the trailer on. *)


From Coq Require Import ZArith List Bool Lia.
From Verif Require SpecInfo ModelCmap ModelContent SpecContent SpecForm PropForm SpecAppear PropAppear.
From Verif Require Import Bytes ModelFloat ModelBuf ModelObject ModelChunk ModelColor ModelSmall ModelPdf ModelTw ModelEnums ModelRoles ModelTwArgs
  ModelTwFiles ModelTwGraphics ModelTwAnnot ModelTwForms ModelTwAttr ModelTwXObj ModelTwFonts ModelTwDoc ModelFontDesc ModelDoc
  SpecLex SpecObj SpecText SpecMeans SpecRenum SpecChunk SpecFile SpecPdf SpecTyped SpecColor SpecSmall SpecTw SpecEnums SpecRoles SpecTwArgs
  SpecTwFiles SpecTwGraphics SpecTwAnnot SpecTwForms SpecTwAttr SpecTwXObj SpecTwFonts SpecTwDoc SpecFontDesc SpecDoc SpecPages SpecExtract SpecNav SpecViews SpecFunctions SpecActions SpecPresent
  ProofBasic ProofTree ProofTyped ProofTw ProofTwDoc PropDoc PropPdf2 PropPages PropExtract PropNav PropTagged PropInfo PropPaint PropFunctions PropActions.
Import ListNotations.
Local Open Scope Z_scope.

Lemma real_found k xs d (x : option f32) : is_dict xs (VDict d) -> entries_for k xs = entry_or_none k (option_map is_real x) ->
  exists r, optional k d read_number = Some r /\ optionally is_real x r.
Proof.
  intros D E. unfold optional. destruct x as [f|]; cbn [option_map entry_or_none] in E.
  - destruct (dict_lookup _ _ _ _ D E) as (v & L & Q). rewrite L, (number_found f v Q). exists (Some v). split; [reflexivity|exact Q].
  - rewrite (dict_lookup_none _ _ _ D E). exists None. split; [reflexivity|exact Logic.I].
Qed.
Lemma choice_found yes no (b : bool) v : yes <> no -> is_name (if b then yes else no) v -> read_choice yes no v = Some b.
Proof.
  intros N ->. cbn [read_choice]. destruct b.
  - rewrite (proj2 (bytes_eqb_spec yes yes) eq_refl). reflexivity.
  - destruct (bytes_eqb no yes) eqn:E; [apply bytes_eqb_spec in E; congruence|]. rewrite (proj2 (bytes_eqb_spec no no) eq_refl). reflexivity.
Qed.
Lemma angle_found a v : is_TransitionAngle a v -> read_angle v = Some a.
Proof. intros ->. destruct a; reflexivity. Qed.
Lemma standard_found t n v : standard_name t n -> is_OutputIntentSubtype t v -> read_name v = Some n.
Proof.
  intros -> H. unfold is_OutputIntentSubtype in H. destruct t; try (subst v; reflexivity);
    destruct H as (m & -> & H); cbn [read_name]; f_equal; unfold OutputIntentSubtype_table in H; cbn [by_name] in H;
    repeat (destruct (bytes_eqb m _) eqn:E; [apply bytes_eqb_spec in E; (discriminate H || exact E)|clear E]); discriminate H.
Qed.
Lemma all_found {C A} (P : C -> A -> Prop) (Q : C -> val -> Prop) (f : val -> option A) : (forall c a v, P c a -> Q c v -> f v = Some a) ->
  forall cs l v, Forall2 P cs l -> is_array_of Q cs v -> read_list f v = Some l.
Proof.
  intros H cs l v F (vs & -> & G). cbn [read_list]. revert vs G. induction F as [|c a cs l W F IH]; intros vs G; inversion G as [|? v ? vs' G1 G2]; subst; [reflexivity|].
  cbn [map all_of]. rewrite (H c a v W G1), (IH vs' G2). reflexivity.
Qed.
(** A part with a relation between what was asked and what is read. *)
Lemma part_related {C A B} k (Q : C -> val -> Prop) (f : val -> option B) (P : C -> A -> Prop) (Rel : A -> B -> Prop) (given : option C -> Prop) xs d (a : option A) :
  is_dict xs (VDict d) -> (forall c, given c -> entries_for k xs = entry_or_none k (option_map Q c)) -> part_given given P a ->
  (forall c a' v, P c a' -> Q c v -> exists b, f v = Some b /\ Rel a' b) -> exists r, optional k d f = Some r /\ optionally Rel a r.
Proof.
  intros D E W H. destruct a as [a|]; cbn [part_given] in W.
  - destruct W as (c & G & W). specialize (E _ G). cbn [option_map entry_or_none] in E. unfold optional.
    destruct (dict_lookup _ _ _ _ D E) as (v & L & V). rewrite L. destruct (H c a v W V) as (b & -> & X). exists (Some b). split; [reflexivity|exact X].
  - specialize (E _ W). cbn [option_map entry_or_none] in E. unfold optional. rewrite (dict_lookup_none _ _ _ D E). exists None. split; [reflexivity|exact Logic.I].
Qed.

Section Walk.
  Variables (decode : option val -> bytes -> option bytes) (resolved : Z -> option indirect) (ops : list doc_op).
  Hypothesis R : Forall (fun op => doc_op_reads op resolved) ops.

  Lemma preferences_found calls p v : preferences_written calls p -> ViewerPreferences_reads calls v -> read_preferences resolved v = Some p.
  Proof using Type.
    intros (H1 & H2 & H3 & H4 & H5 & H6 & H7) Q. destruct (dict_is _ _ Q) as [d ->]. destruct p as [p1 p2 p3 p4 p5 p6 p7]. cbn [vp_toolbar vp_menubar vp_fit vp_center vp_title vp_after vp_direction] in *.
    entries H1 ViewerPreferences_head ViewerPreferences_doc is_bool. entries H2 ViewerPreferences_head ViewerPreferences_doc is_bool.
    entries H3 ViewerPreferences_head ViewerPreferences_doc is_bool. entries H4 ViewerPreferences_head ViewerPreferences_doc is_bool.
    entries H5 ViewerPreferences_head ViewerPreferences_doc is_bool. entries H6 ViewerPreferences_head ViewerPreferences_doc is_PageMode.
    entries H7 ViewerPreferences_head ViewerPreferences_doc is_Direction. unfold read_preferences. cbn [object_dict bind]. cbv zeta.
    rewrite (same_found _ is_bool _ _ d p1 Q H1 bool_found). cbn [bind]. rewrite (same_found _ is_bool _ _ d p2 Q H2 bool_found). cbn [bind].
    rewrite (same_found _ is_bool _ _ d p3 Q H3 bool_found). cbn [bind]. rewrite (same_found _ is_bool _ _ d p4 Q H4 bool_found). cbn [bind].
    rewrite (same_found _ is_bool _ _ d p5 Q H5 bool_found). cbn [bind]. rewrite (same_found _ is_PageMode _ _ d p6 Q H6 (enum_found _)). cbn [bind].
    rewrite (same_found _ is_Direction _ _ d p7 Q H7 (enum_found _)). reflexivity.
  Qed.
  Lemma marking_found calls p v : marking_written calls p -> MarkInfo_reads calls v -> read_marking resolved v = Some p.
  Proof using Type.
    intros (H1 & H2 & H3) Q. destruct (dict_is _ _ Q) as [d ->]. destruct p as [p1 p2 p3]. cbn [mk_marked mk_user mk_suspects] in *.
    entries H1 MarkInfo_head MarkInfo_doc is_bool. entries H2 MarkInfo_head MarkInfo_doc is_bool. entries H3 MarkInfo_head MarkInfo_doc is_bool.
    unfold read_marking. cbn [object_dict bind]. cbv zeta.
    rewrite (same_found _ is_bool _ _ d p1 Q H1 bool_found). cbn [bind]. rewrite (same_found _ is_bool _ _ d p2 Q H2 bool_found). cbn [bind].
    rewrite (same_found _ is_bool _ _ d p3 Q H3 bool_found). reflexivity.
  Qed.
  Lemma extension_found calls p v : extension_written calls p -> DeveloperExtension_reads calls v -> read_extension resolved v = Some p.
  Proof using Type.
    intros (H1 & H2) Q. destruct (dict_is _ _ Q) as [d ->]. destruct p as [p1 p2]. cbn [ex_version ex_level] in *.
    entries H1 DeveloperExtension_head DeveloperExtension_doc (fun x : Z * Z => is_version (fst x) (snd x)). entries H2 DeveloperExtension_head DeveloperExtension_doc is_int.
    unfold read_extension. cbn [object_dict bind].
    rewrite (same_found _ (fun x : Z * Z => is_version (fst x) (snd x)) _ _ d p1 Q H1) by (intros [x y] v Hv; exact (version_found x y v Hv)). cbn [bind].
    rewrite (same_found _ is_int _ _ d p2 Q H2) by (intros a v ->; reflexivity). reflexivity.
  Qed.
  Lemma profile_found id content v : profile_written decode ops id content -> is_ref id v -> its_content decode resolved v = Some content.
  Proof using R.
    intros (data & calls & H1 & H2) ->. unfold its_content. cbn [read_id bind].
    apply (stored_with_entries decode [] icc_call_doc) in H2; [|reflexivity|each_call]. destruct (found resolved ops R _ _ H1) as (i & E & vs & -> & D).
    exact (stream_with_found decode resolved _ _ _ _ _ E D H2).
  Qed.
  Lemma image_content_found id content v : image_content decode ops id content -> is_ref id v -> its_content decode resolved v = Some content.
  Proof using R.
    intros (data & calls & H1 & H2) ->. unfold its_content. cbn [read_id bind].
    apply (stored_with_entries decode ImageXObject_head ImageXObject_doc) in H2; [|reflexivity|each_call]. destruct (found resolved ops R _ _ H1) as (i & E & vs & -> & D).
    exact (stream_with_found decode resolved _ _ _ _ _ E D H2).
  Qed.
  Lemma metadata_content_found id content v : metadata_content decode ops id content -> is_ref id v -> its_content decode resolved v = Some content.
  Proof using R.
    intros (data & calls & H1 & H2) ->. unfold its_content. cbn [read_id bind].
    apply (stored_with_entries decode Metadata_head Metadata_doc) in H2; [|reflexivity|each_call]. destruct (found resolved ops R _ _ H1) as (i & E & vs & -> & D).
    exact (stream_with_found decode resolved _ _ _ _ _ E D H2).
  Qed.
  Lemma intent_found calls p v : intent_written decode ops (map Typed calls) p -> OutputIntent_reads calls v -> read_intent decode resolved v = Some p.
  Proof using R.
    intros (H1 & H2 & H3 & H4 & H5 & H6) Q. unfold OutputIntent_reads in Q. destruct (dict_is _ _ Q) as [d ->]. destruct p as [p1 p2 p3 p4 p5 p6].
    cbn [oi_standard oi_condition oi_identifier oi_registry oi_info oi_profile] in *.
    entries H2 OutputIntent_head OutputIntent_doc is_textlike. entries H3 OutputIntent_head OutputIntent_doc is_textlike.
    entries H4 OutputIntent_head OutputIntent_doc is_text. entries H5 OutputIntent_head OutputIntent_doc is_textlike.
    unfold read_intent. cbn [object_dict bind]. cbv zeta.
    rewrite (part_same (lit "S") is_OutputIntentSubtype _ standard_name _ _ d p1 Q) with (2 := H1);
      [|intros c H; entries H OutputIntent_head OutputIntent_doc is_OutputIntentSubtype; exact H|exact standard_found]. cbn [bind].
    rewrite (text_option_found _ d _ _ Q H2). cbn [bind]. rewrite (text_option_found _ d _ _ Q H3). cbn [bind].
    rewrite (same_found _ is_text _ _ d p4 Q H4 text_found). cbn [bind]. rewrite (text_option_found _ d _ _ Q H5). cbn [bind].
    rewrite (part_same (lit "DestOutputProfile") is_ref _ (profile_written decode ops) _ _ d p6 Q) with (2 := H6);
      [reflexivity|intros c H; entries H OutputIntent_head OutputIntent_doc is_ref; exact H|exact profile_found].
  Qed.
  Lemma extensions_found cs l v : Forall2 (fun e x => fst x = fst e /\ extension_written (snd e) (snd x)) cs l -> is_dict_of DeveloperExtension_reads cs v ->
    read_extensions resolved v = Some l.
  Proof using Type.
    intros F (d & -> & G). unfold read_extensions. cbn [object_dict bind]. revert d G.
    induction F as [|[k c] [k' x] cs l [W1 W2] F IH]; intros d G; inversion G as [|? [k2 v] ? d' [G1 G2] G3]; subst; [reflexivity|]. cbn [fst snd] in *. subst.
    cbn [map all_of fst snd]. rewrite (extension_found c x v W2 G2), (IH d' G3). reflexivity.
  Qed.
  Lemma transition_found calls t v : transition_written calls t -> Transition_reads calls v -> exists r, read_transition resolved v = Some r /\ transition_is t r.
  Proof using Type.
    intros (H1 & H2 & H3 & H4 & H5 & H6) Q. destruct (dict_is _ _ Q) as [d ->]. destruct t as [p1 p2 p3 p4 p5 p6].
    cbn [tr_style tr_seconds tr_vertical tr_outward tr_angle tr_scale] in *.
    entries H1 Transition_head Transition_doc is_TransitionStyle. entries H2 Transition_head Transition_doc is_real.
    entries H3 Transition_head Transition_doc (fun b : bool => is_name (if b then lit "V" else lit "H")).
    entries H4 Transition_head Transition_doc (fun b : bool => is_name (if b then lit "O" else lit "I")).
    entries H5 Transition_head Transition_doc is_TransitionAngle. entries H6 Transition_head Transition_doc is_real.
    destruct (real_found _ _ _ _ Q H2) as (r2 & E2 & X2). destruct (real_found _ _ _ _ Q H6) as (r6 & E6 & X6).
    exists (mkTransition p1 r2 p3 p4 p5 r6). split; [|repeat split; assumption]. unfold read_transition. cbn [object_dict bind].
    rewrite (same_found _ is_TransitionStyle _ _ d p1 Q H1 (enum_found _)). cbn [bind]. rewrite E2. cbn [bind].
    rewrite (same_found _ _ _ _ d p3 Q H3) by (intros b v; apply choice_found; discriminate). cbn [bind].
    rewrite (same_found _ _ _ _ d p4 Q H4) by (intros b v; apply choice_found; discriminate). cbn [bind].
    rewrite (same_found _ is_TransitionAngle _ _ d p5 Q H5 angle_found). cbn [bind]. rewrite E6. reflexivity.
  Qed.
  Lemma group_of_found calls t v : group_written calls t -> Group_reads calls v -> exists r, read_group_of resolved v = Some r /\ group_is t r.
  Proof using Type.
    intros (H1 & H2 & H3 & H4) Q. destruct (dict_is _ _ Q) as [d ->]. destruct t as [p1 p2 p3 p4]. cbn [gr_transparency gr_space gr_isolated gr_knockout] in *.
    entries H1 Group_head Group_doc (fun _ : unit => is_name (lit "Transparency")). entries H2 Group_head Group_doc cs_reads.
    entries H3 Group_head Group_doc is_bool. entries H4 Group_head Group_doc is_bool.
    assert (X : exists r, optional (lit "CS") d Some = Some r /\ optionally cs_reads p2 r).
    { unfold optional. destruct p2 as [c|]; cbn [option_map entry_or_none] in H2.
      - destruct (dict_lookup _ _ _ _ Q H2) as (v & L & P). rewrite L. exists (Some v). split; [reflexivity|exact P].
      - rewrite (dict_lookup_none _ _ _ Q H2). exists None. split; [reflexivity|exact Logic.I]. }
    destruct X as (r & E & X). exists (mkGroup p1 r p3 p4). split; [|repeat split; exact X]. unfold read_group_of. cbn [object_dict bind].
    rewrite (same_found _ (fun _ : unit => is_name (lit "Transparency")) _ _ d p1 Q H1) by (intros [] v ->; reflexivity). cbn [bind]. rewrite E. cbn [bind].
    rewrite (same_found _ is_bool _ _ d p3 Q H3 bool_found). cbn [bind]. rewrite (same_found _ is_bool _ _ d p4 Q H4 bool_found). reflexivity.
  Qed.
  Lemma shown_found page s d : page_shown_written decode ops page s -> resolved page = Some (IObj page 0 (VDict d)) ->
    exists r, read_shown decode resolved d = Some r /\ presented_is s r.
  Proof using R.
    intros (calls & H0 & H1 & H2 & H3 & H4 & H5 & H6 & H7 & H8) E. destruct (found resolved ops R _ _ H0) as (i & E' & v & -> & Q). rewrite E in E'. apply some_inj in E'.
    assert (v = VDict d) as -> by congruence. clear E' E. destruct s as [p1 p2 p3 p4 p5 p6 p7 p8].
    cbn [sp_modified sp_seconds sp_transition sp_group sp_tabs sp_thumbnail sp_metadata sp_files] in *.
    entries H2 Page_head Page_doc is_real. entries H5 Page_head Page_doc is_TabOrder. destruct (real_found _ _ _ _ Q H2) as (r2 & E2 & X2).
    assert (Y3 : exists r, optional (lit "Trans") d (read_transition resolved) = Some r /\ optionally transition_is p3 r).
    { apply (part_related (lit "Trans") Transition_reads _ transition_written _ _ _ d p3 Q) with (2 := H3); [intros c H; entries H Page_head Page_doc Transition_reads; exact H|exact transition_found]. }
    destruct Y3 as (r3 & E3 & X3).
    assert (Y4 : exists r, optional (lit "Group") d (read_group_of resolved) = Some r /\ optionally group_is p4 r).
    { apply (part_related (lit "Group") Group_reads _ group_written _ _ _ d p4 Q) with (2 := H4); [intros c H; entries H Page_head Page_doc Group_reads; exact H|exact group_of_found]. }
    destruct Y4 as (r4 & E4 & X4).
    exists (mkShown p1 r2 r3 r4 p5 p6 p7 p8). split; [|repeat split; assumption]. unfold read_shown.
    rewrite (date_part_found _ d _ _ p1 Q) with (2 := H1) by (intros c H; entries H Page_head Page_doc is_date_of; exact H). cbn [bind].
    rewrite E2. cbn [bind]. rewrite E3. cbn [bind]. rewrite E4. cbn [bind].
    rewrite (same_found _ is_TabOrder _ _ d p5 Q H5 (enum_found _)). cbn [bind].
    rewrite (part_same (lit "Thumb") is_ref _ (image_content decode ops) _ _ d p6 Q) with (2 := H6);
      [|intros c H; entries H Page_head Page_doc is_ref; exact H|exact image_content_found]. cbn [bind].
    rewrite (part_same (lit "Metadata") is_ref _ (metadata_content decode ops) _ _ d p7 Q) with (2 := H7);
      [|intros c H; entries H Page_head Page_doc is_ref; exact H|exact metadata_content_found]. cbn [bind].
    rewrite (part_same (lit "AF") (is_array_of FileSpec_reads) _ (Forall2 (file_written decode ops)) _ _ d p8 Q) with (2 := H8);
      [reflexivity|intros c H; entries H Page_head Page_doc (is_array_of FileSpec_reads); exact H|].
    intros c a v. apply all_found. exact (file_found decode resolved ops R).
  Qed.
End Walk.

(** A reader that starts from the trailer finds the viewer preferences, the marking, the extensions, the output intents with their profiles and
    the associated files of the document. *)
Theorem C85_document : forall decode ops cat file calls p,
  finished_document decode ops cat file -> In (DocCatalog cat calls) ops -> presentation_written decode ops calls p ->
  read_presentation decode file = Some p.
Proof.
  intros decode ops cat file calls p D I (H1 & H2 & H3 & H4 & H5). destruct (document_facts _ _ _ _ D) as [X _]. destruct (catalog_found _ _ _ _ _ D I) as (c & C1 & Q).
  destruct p as [p1 p2 p3 p4 p5]. cbn [pn_preferences pn_marking pn_extensions pn_intents pn_files] in *. unfold read_presentation. rewrite C1. cbv zeta. cbn [bind].
  rewrite (part_same (lit "ViewerPreferences") ViewerPreferences_reads _ preferences_written _ _ c p1 Q) with (2 := H1);
    [|intros x H; entries H Catalog_head Catalog_doc ViewerPreferences_reads; exact H|exact (preferences_found _)]. cbn [bind].
  rewrite (part_same (lit "MarkInfo") MarkInfo_reads _ marking_written _ _ c p2 Q) with (2 := H2);
    [|intros x H; entries H Catalog_head Catalog_doc MarkInfo_reads; exact H|exact (marking_found _)]. cbn [bind].
  rewrite (part_same (lit "Extensions") (is_dict_of DeveloperExtension_reads) _ _ _ _ c p3 Q) with (2 := H3);
    [|intros x H; entries H Catalog_head Catalog_doc (is_dict_of DeveloperExtension_reads); exact H|exact (extensions_found _)]. cbn [bind].
  rewrite (part_same (lit "OutputIntents") (is_array_of OutputIntent_reads) _ _ _ _ c p4 Q) with (2 := H4);
    [|intros x H; entries H Catalog_head Catalog_doc (is_array_of OutputIntent_reads); exact H|
      intros x a v; apply all_found; exact (intent_found decode _ ops X)]. cbn [bind].
  rewrite (part_same (lit "AF") (is_array_of FileSpec_reads) _ _ _ _ c p5 Q) with (2 := H5);
    [reflexivity|intros x H; entries H Catalog_head Catalog_doc (is_array_of FileSpec_reads); exact H|
      intros x a v; apply all_found; exact (file_found decode _ ops X)].
Qed.
(** And for every page its date, duration, transition, transparency group, tab order, thumbnail, metadata and associated files. *)
Theorem C85_pages : forall decode ops cat file calls tree l,
  finished_document decode ops cat file -> In (DocCatalog cat calls) ops -> pages_written ops calls tree ->
  Forall2 (page_shown_written decode ops) (it_pages tree) l ->
  exists depth rs, Forall2 presented_is l rs /\ forall n, (depth <= n)%nat -> read_pages_shown decode n file = Some rs.
Proof.
  intros decode ops cat file calls tree l D I P W. destruct (document_facts _ _ _ _ D) as [X _]. destruct (pages_found _ _ _ _ _ _ D I P) as (ds & F & E).
  assert (Y : exists rs, Forall2 presented_is l rs /\ all_of (map (fun p => read_shown decode (resolve decode file) (snd p)) ds) = Some rs).
  { clear - X F W. revert l W. induction F as [|id e pages ds [_ F1] F IH]; intros l W; inversion W as [|? s ? l' W1 W2]; subst; [exists []; split; [constructor|reflexivity]|].
    destruct (shown_found decode _ ops X id s (snd e) W1 F1) as (r & E & S1). destruct (IH l' W2) as (rs & S2 & Es). exists (r :: rs). split; [constructor; assumption|].
    cbn [map all_of]. rewrite E, Es. reflexivity. }
  destruct Y as (rs & S1 & Y). exists (it_depth tree), rs. split; [exact S1|]. intros n L. unfold read_pages_shown. rewrite (E n L). exact Y.
Qed.
(** Refuted: no typed method of [Page] writes the separation information that a reader looks for in the page (14.11.4); the method for it is one of the
    catalog. *)
Theorem C85_separation_refuted : forall decode ops cat file calls tree l,
  finished_document decode ops cat file -> In (DocCatalog cat calls) ops -> pages_written ops calls tree ->
  Forall2 (fun page cs => In (DocTyped page (Ck_page (map Typed cs))) ops) (it_pages tree) l ->
  exists depth, forall n, (depth <= n)%nat -> read_page_separation decode n file = Some (map (fun _ => None) l).
Proof.
  intros decode ops cat file calls tree l D I P W. destruct (document_facts _ _ _ _ D) as [X _]. destruct (pages_found _ _ _ _ _ _ D I P) as (ds & F & E).
  exists (it_depth tree). intros n L. unfold read_page_separation. rewrite (E n L). cbn [bind]. f_equal. clear - X F W. revert l W.
  induction F as [|id e pages ds [_ F1] F IH]; intros l W; inversion W as [|? cs ? l' W1 W2]; subst; [reflexivity|]. cbn [map]. rewrite (IH l' W2). f_equal.
  destruct (found _ ops X _ _ W1) as (i & E' & v & -> & Q). rewrite F1 in E'. apply some_inj in E'. assert (v = VDict (snd e)) as -> by congruence.
  apply (dict_lookup_none _ _ _ Q).
  assert (Y : entries_for (lit "SeparationInfo") (flat_map (raw_doc Page_doc) (map Typed cs)) = []).
  { clear. induction cs as [|c cs IH]; [reflexivity|]. cbn [map flat_map raw_doc]. rewrite entries_for_app, IH, app_nil_r. destruct c; reflexivity. }
  exact Y.
Qed.

(** ** A document with all of it *)

Definition shown_extension : DeveloperExtension_calls := [Typed (DeveloperExtension_base_version 1 7); Typed (DeveloperExtension_extension_level 3)].
Definition shown_catalog : Catalog_calls := [Typed (Catalog_pages 2);
  Typed (Catalog_viewer_preferences [Typed (ViewerPreferences_fit_window true); Typed (ViewerPreferences_display_doc_title false);
    Typed (ViewerPreferences_non_full_screen_page_mode PageMode_UseOutlines); Typed (ViewerPreferences_direction Direction_R2L)]);
  Typed (Catalog_mark_info [Typed (MarkInfo_marked true); Typed (MarkInfo_suspects false)]); Typed (Catalog_extensions [(lit "ADBE", shown_extension)]);
  Typed (Catalog_output_intents [[OutputIntent_subtype OutputIntentSubtype_PDFA; OutputIntent_output_condition_identifier (TextPlain [67; 8364]);
    OutputIntent_dest_output_profile 5]; [OutputIntent_subtype (OutputIntentSubtype_Custom (lit "Mine")); OutputIntent_registry_name [114]]]);
  Typed (Catalog_associated_files [[Typed (FileSpec_path (lit "a")); Typed (FileSpec_volatile false)]])].
Definition shown_page : Page_calls := [Typed (Page_parent 2); Typed (Page_duration (FFin false 8388608 (-22))); Typed (Page_tab_order TabOrder_RowOrder); Typed (Page_thumbnail 6);
  Typed (Page_metadata 7); Typed (Page_transition [Typed (Transition_style TransitionStyle_Wipe); Typed (Transition_duration one);
    Typed (Transition_angle TransitionAngle_TopToBottom); Typed (Transition_dimension true); Typed (Transition_direction false)]);
  Typed (Page_group [Typed Group_transparency; Typed (Group_isolated true)])].
Definition shown_sample : list doc_op :=
  [DocCatalog 1 shown_catalog; DocTyped 2 (Ck_pages [Typed (Pages_kids [3; 4]); Typed (Pages_count 2)]); DocTyped 3 (Ck_page shown_page); DocTyped 4 (Ck_page [Typed (Page_parent 2)]);
   DocTyped 5 (Ck_icc_profile (lit "icc") []); DocTyped 6 (Ck_image_xobject (lit "i") []); DocTyped 7 (Ck_metadata (lit "<>") [])].
Definition shown_tree := ItNode 2 [ItPage 3; ItPage 4].
Definition shown_asked : presentation :=
  mkPresentation (Some (mkPreferences None None (Some true) None (Some false) (Some PageMode_UseOutlines) (Some Direction_R2L)))
    (Some (mkMarking (Some true) None (Some false))) (Some [(lit "ADBE", mkExtension (Some (1, 7)) (Some 3))])
    (Some [mkIntent (Some (lit "GTS_PDFA1")) None (Some [67; 8364]) None None (Some (lit "icc")); mkIntent (Some (lit "Mine")) None None (Some [114]) None None])
    (Some [mkFile None (Some (lit "a")) None None (Some false) None None]).
Definition shown_pages_asked : list (page_shown f32 cs) :=
  [mkShown None (Some (FFin false 8388608 (-22))) (Some (mkTransition (Some TransitionStyle_Wipe) (Some one) (Some true) (Some false) (Some TransitionAngle_TopToBottom) None))
     (Some (mkGroup (Some tt) None (Some true) None)) (Some TabOrder_RowOrder) (Some (lit "i")) (Some (lit "<>")) None;
   mkShown None None None None None None None None].
Ltac there := cbn [shown_sample In]; tauto.
Ltac content := eexists; eexists; split; [there|exists None; split; reflexivity].
Example C85_case : presentation_written no_filter shown_sample shown_catalog shown_asked /\ pages_written shown_sample shown_catalog shown_tree /\
  Forall2 (page_shown_written no_filter shown_sample) (it_pages shown_tree) shown_pages_asked.
Proof.
  split; [|split; [split; [reflexivity|]; split; [eexists; split; [there|reflexivity]|]; split; [eexists; there|]; split; [eexists; there|exact Logic.I]|]].
  - split; [eexists; split; [reflexivity|]; repeat split|]. split; [eexists; split; [reflexivity|]; repeat split|].
    split; [eexists; split; [reflexivity|]; apply Forall2_cons; [repeat split|apply Forall2_nil]|]. split.
    + eexists. split; [reflexivity|]. apply Forall2_cons; [|apply Forall2_cons; [|apply Forall2_nil]].
      * split; [eexists; split; reflexivity|]. do 4 (split; [reflexivity|]). eexists. split; [reflexivity|content].
      * split; [eexists; split; reflexivity|]. do 4 (split; [reflexivity|]). reflexivity.
    + eexists. split; [reflexivity|]. apply Forall2_cons; [repeat split|apply Forall2_nil].
  - apply Forall2_cons; [|apply Forall2_cons; [|apply Forall2_nil]]; (eexists; split; [there|]).
    + split; [reflexivity|]. split; [reflexivity|]. split; [eexists; split; [reflexivity|]; repeat split|]. split; [eexists; split; [reflexivity|]; repeat split|].
      split; [reflexivity|]. split; [eexists; split; [reflexivity|content]|]. split; [eexists; split; [reflexivity|content]|reflexivity].
    + repeat split.
Qed.
Definition shown_pages_read : list (page_shown val val) :=
  [mkShown None (Some (VInt 2)) (Some (mkTransition (Some TransitionStyle_Wipe) (Some (VInt 1)) (Some true) (Some false) (Some TransitionAngle_TopToBottom) None))
     (Some (mkGroup (Some tt) None (Some true) None)) (Some TabOrder_RowOrder) (Some (lit "i")) (Some (lit "<>")) None;
   mkShown None None None None None None None None].
Example C85_file : exists file, finished_document no_filter shown_sample 1 file /\
  (read_presentation no_filter file, read_pages_shown no_filter 3 file, read_page_separation no_filter 3 file) =
  (Some shown_asked, Some shown_pages_read, Some [None; None]).
Proof.
  assert (X : match doc_run shown_sample (pdf_with_settings true) with
              | Some p => match finish p with
                  | Some file => Some (blen file <=? 10 ^ 10, (read_presentation no_filter file, read_pages_shown no_filter 3 file, read_page_separation no_filter 3 file))
                  | None => None end
              | None => None end = Some (true, (Some shown_asked, Some shown_pages_read, Some [None; None]))) by (vm_compute; reflexivity).
  destruct (doc_run shown_sample (pdf_with_settings true)) as [p|] eqn:R; [|discriminate].
  destruct (finish p) as [file|] eqn:F; [|discriminate]. exists file. apply some_inj in X.
  split; [apply (finished_table _ _ _ _ true p); [|exact R|exact F| |apply Z.leb_le; exact (f_equal fst X)|reflexivity]|exact (f_equal snd X)].
  - repeat (apply Forall_cons; [cbn [doc_op_ok op_typed]; repeat split|]); apply Forall_nil.
  - unfold ids_below; repeat constructor.
Qed.

Print Assumptions C85_document.
Print Assumptions C85_pages.
Print Assumptions C85_separation_refuted.
