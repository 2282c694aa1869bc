(** C88: annotations with all that belongs to them, from the trailer on. *)

From Coq Require Import ZArith List Bool Lia.
From Verif Require SpecInfo ModelCmap ModelContent SpecContent SpecForm PropForm SpecForm PropForm SpecAppear PropAppear.
From Verif Require Import Bytes ModelFloat ModelBuf ModelObject ModelChunk ModelColor ModelSmall ModelPdf ModelTw ModelEnums ModelRoles ModelTwArgs
  ModelTwFiles ModelTwGraphics ModelTwAnnot ModelTwForms ModelTwAttr ModelTwXObj ModelTwFonts ModelTwDoc ModelFontDesc ModelDoc
  SpecLex SpecObj SpecText SpecMeans SpecRenum SpecChunk SpecFile SpecPdf SpecTyped SpecColor SpecSmall SpecTw SpecEnums SpecRoles SpecTwArgs
  SpecTwFiles SpecTwGraphics SpecTwAnnot SpecTwForms SpecTwAttr SpecTwXObj SpecTwFonts SpecTwDoc SpecFontDesc SpecDoc SpecPages SpecExtract SpecNav SpecViews SpecTagged SpecPaint SpecFunctions SpecActions SpecPresent SpecColors SpecImages SpecAppear SpecAttrs SpecMarks SpecMarks
  ProofBasic ProofTree ProofTyped ProofTw ProofTwDoc PropDoc PropPdf2 PropPages PropExtract PropNav PropTagged PropInfo PropPaint PropFunctions PropColors PropActions PropPresent PropImages PropAppear PropAttrs.
Import ListNotations.
Local Open Scope Z_scope.

Definition border_reads (b : f32 * f32 * f32 * option (list f32)) : val -> Prop := let '(h, v, w, d) := b in is_border h v w d.
Lemma border_related b v : border_reads b v -> exists r, read_border v = Some r /\ frame_is b r.
Proof.
  destruct b as [[[h x] w] d]. cbn [border_reads]. unfold is_border. intros (vs & -> & F). cbn [app] in F.
  inversion F as [|? a ? l1 F1 G1]; subst. inversion G1 as [|? b ? l2 F2 G2]; subst. inversion G2 as [|? c ? l3 F3 G3]; subst. destruct d as [d|].
  - inversion G3 as [|? e ? l4 F4 G4]; subst. inversion G4; subst. destruct (numbers_found _ _ F4) as (ds & E & X). exists (a, b, c, Some ds). cbn [read_border].
    rewrite (number_found _ _ F1), (number_found _ _ F2), (number_found _ _ F3), E. split; [reflexivity|]. split; [exact F1|split; [exact F2|split; [exact F3|exact X]]].
  - inversion G3; subst. exists (a, b, c, None). cbn [read_border]. rewrite (number_found _ _ F1), (number_found _ _ F2), (number_found _ _ F3). split; [reflexivity|].
    split; [exact F1|split; [exact F2|split; [exact F3|exact Logic.I]]].
Qed.
Lemma looks_found x v : AppearanceEntry_reads x v -> read_looks v = Some x.
Proof.
  destruct x as [id|l]; cbn [AppearanceEntry_reads]; [intros ->; reflexivity|]. intros (d & -> & F). cbn [read_looks].
  assert (E : SpecNav.all_of (map (fun e : bytes * val => option_map (pair (fst e)) (read_id (snd e))) d) = Some l); [|rewrite E; reflexivity].
  revert d F. induction l as [|[n id] l IH]; intros d F; inversion F as [|? [k v] ? d' [F1 F2] F']; subst; [reflexivity|]. cbn [fst snd] in *. subst k. unfold is_ref in F2. subst v.
  cbn [map SpecNav.all_of fst snd read_id option_map]. rewrite (IH d' F'). reflexivity.
Qed.
Lemma icon_found x v : icon_apart x -> is_AnnotationIcon x v -> read_open AnnotationIcon_table AnnotationIcon_Custom v = Some x.
Proof.
  intros A V. destruct x; try (apply open_found; exact V). cbn [icon_apart is_AnnotationIcon] in *. subst v. unfold read_open. cbn [read_name bind]. rewrite A. reflexivity.
Qed.
(** From the calls to the entries. *)
Lemma mark_called_entries {A} k (P : A -> val -> Prop) own sel calls a :
  bytes_eqb k (lit "Type") = false -> bytes_eqb k (lit "Subtype") = false ->
  (forall c, match c with Field_into_annotation _ => True | _ => entries_for k (Field_doc c) = map (reading k P) (own c) end) ->
  (forall c, entries_for k (Annotation_doc c) = map (reading k P) (sel c)) ->
  mark_called k own sel calls a -> entries_for k (annotation_entries calls) = entry_or_none k (option_map P a).
Proof.
  intros T S H1 H2 H. destruct calls as [calls|calls]; cbn [mark_called annotation_entries] in *.
  - apply (called_entries k sel P); [|exact H2|exact H]. unfold Annotation_head, entries_for. cbn [List.filter fst]. rewrite T. reflexivity.
  - apply (PropForm.field_entries k P own sel); assumption.
Qed.
Lemma annotation_called_mark {A} k sel calls (a : option A) : annotation_called k sel calls a -> mark_called k (fun _ => []) sel calls a.
Proof. destruct calls; intro H; exact H. Qed.
Ltac mcall H P := apply (mark_called_entries _ P) in H; [|reflexivity|reflexivity|let c := fresh in intro c; destruct c; exact Logic.I || reflexivity|each_call].
Ltac acall H P := apply annotation_called_mark in H; mcall H P.

Section Walk.
  Variables (decode : option val -> bytes -> option bytes) (resolved : Z -> option indirect) (ops : list doc_op).
  Hypothesis R : Forall (fun op => doc_op_reads op resolved) ops.

  Lemma border_of_found calls x v : border_of_written calls x -> BorderStyle_reads calls v -> exists r, (read_border_of resolved) v = Some r /\ border_of_is x r.
  Proof using Type.
    intros (H0 & H1 & H2) Q. destruct (dict_is _ _ Q) as [d ->]. destruct x as [p0 p1 p2].
    cbn [bo_width bo_style bo_dashes] in *.
    entries H0 BorderStyle_head BorderStyle_doc is_real.
    entries H1 BorderStyle_head BorderStyle_doc is_BorderType.
    entries H2 BorderStyle_head BorderStyle_doc is_reals.
    destruct (related_found (lit "W") is_real _ _ _ _ p0 Q H0 number_related) as (r0 & E0 & X0).
    destruct (related_found (lit "D") is_reals _ _ _ _ p2 Q H2 numbers_found) as (r2 & E2 & X2).
    exists (mkBorderOf r0 p1 r2).
    split; [|unfold border_of_is; repeat (split; [first [reflexivity|assumption]|]); first [reflexivity|assumption]].
    unfold read_border_of. cbn [object_dict bind].
    rewrite E0. cbn [bind].
    rewrite (same_found (lit "S") is_BorderType _ _ _ p1 Q H1 (enum_found _)). cbn [bind].
    rewrite E2. cbn [bind].
    reflexivity.
  Qed.
  Lemma fit_of_found calls x v : fit_of_written calls x -> IconFit_reads calls v -> exists r, (read_fit_of resolved) v = Some r /\ fit_of_is x r.
  Proof using Type.
    intros (H0 & H1 & H2 & H3) Q. destruct (dict_is _ _ Q) as [d ->]. destruct x as [p0 p1 p2 p3].
    cbn [fit_when fit_how fit_left fit_bounds] in *.
    entries H0 IconFit_head IconFit_doc is_IconScale.
    entries H1 IconFit_head IconFit_doc is_IconScaleType.
    entries H2 IconFit_head IconFit_doc is_reals.
    entries H3 IconFit_head IconFit_doc is_bool.
    destruct (related_found (lit "A") is_reals _ _ _ _ p2 Q H2 numbers_found) as (r2 & E2 & X2).
    exists (mkFitOf p0 p1 r2 p3).
    split; [|unfold fit_of_is; repeat (split; [first [reflexivity|assumption]|]); first [reflexivity|assumption]].
    unfold read_fit_of. cbn [object_dict bind].
    rewrite (same_found (lit "SW") is_IconScale _ _ _ p0 Q H0 (enum_found _)). cbn [bind].
    rewrite (same_found (lit "S") is_IconScaleType _ _ _ p1 Q H1 (enum_found _)). cbn [bind].
    rewrite E2. cbn [bind].
    rewrite (same_found (lit "FB") is_bool _ _ _ p3 Q H3 bool_found). cbn [bind].
    reflexivity.
  Qed.
  Lemma characteristics_found calls x v : characteristics_written calls x -> AppearanceCharacteristics_reads calls v -> exists r, (read_characteristics resolved) v = Some r /\ characteristics_is x r.
  Proof using Type.
    intros (H0 & H1 & H2 & H3 & H4 & H5 & H6 & H7 & H8 & H9 & H10) Q. destruct (dict_is _ _ Q) as [d ->]. destruct x as [p0 p1 p2 p3 p4 p5 p6 p7 p8 p9 p10].
    cbn [ch_rotation ch_border ch_background ch_normal ch_rollover ch_alternate ch_normal_icon ch_rollover_icon ch_alternate_icon ch_fit ch_position] in *.
    entries H0 AppearanceCharacteristics_head AppearanceCharacteristics_doc is_int.
    entries H1 AppearanceCharacteristics_head AppearanceCharacteristics_doc is_reals.
    entries H2 AppearanceCharacteristics_head AppearanceCharacteristics_doc is_reals.
    entries H3 AppearanceCharacteristics_head AppearanceCharacteristics_doc is_textlike.
    entries H4 AppearanceCharacteristics_head AppearanceCharacteristics_doc is_textlike.
    entries H5 AppearanceCharacteristics_head AppearanceCharacteristics_doc is_textlike.
    entries H6 AppearanceCharacteristics_head AppearanceCharacteristics_doc is_ref.
    entries H7 AppearanceCharacteristics_head AppearanceCharacteristics_doc is_ref.
    entries H8 AppearanceCharacteristics_head AppearanceCharacteristics_doc is_ref.
    entries H10 AppearanceCharacteristics_head AppearanceCharacteristics_doc is_TextPosition.
    destruct (related_found (lit "BC") is_reals _ _ _ _ p1 Q H1 numbers_found) as (r1 & E1 & X1).
    destruct (related_found (lit "BG") is_reals _ _ _ _ p2 Q H2 numbers_found) as (r2 & E2 & X2).
    assert (Y9 : exists r, optional (lit "IF") d (read_fit_of resolved) = Some r /\ optionally fit_of_is p9 r).
    { apply (part_related (lit "IF") IconFit_reads _ fit_of_written _ _ _ d p9 Q) with (2 := H9); [intros c H; entries H AppearanceCharacteristics_head AppearanceCharacteristics_doc IconFit_reads; exact H|exact fit_of_found]. }
    destruct Y9 as (r9 & E9 & X9).
    exists (mkCharacteristics p0 r1 r2 p3 p4 p5 p6 p7 p8 r9 p10).
    split; [|unfold characteristics_is; repeat (split; [first [reflexivity|assumption]|]); first [reflexivity|assumption]].
    unfold read_characteristics. cbn [object_dict bind].
    rewrite (same_found (lit "R") is_int _ _ _ p0 Q H0 whole_found). cbn [bind].
    rewrite E1. cbn [bind].
    rewrite E2. cbn [bind].
    rewrite (text_option_found _ _ (lit "CA") p3 Q H3). cbn [bind].
    rewrite (text_option_found _ _ (lit "RC") p4 Q H4). cbn [bind].
    rewrite (text_option_found _ _ (lit "AC") p5 Q H5). cbn [bind].
    rewrite (same_found (lit "I") is_ref _ _ _ p6 Q H6 id_found). cbn [bind].
    rewrite (same_found (lit "RI") is_ref _ _ _ p7 Q H7 id_found). cbn [bind].
    rewrite (same_found (lit "IX") is_ref _ _ _ p8 Q H8 id_found). cbn [bind].
    rewrite E9. cbn [bind].
    rewrite (same_found (lit "TP") is_TextPosition _ _ _ p10 Q H10 (numbered_found _)). cbn [bind].
    reflexivity.
  Qed.
  Lemma appearances_found calls x v : appearances_written calls x -> Appearance_reads calls v -> (read_appearances resolved) v = Some x.
  Proof using Type.
    intros (H0 & H1 & H2) Q. destruct (dict_is _ _ Q) as [d ->]. destruct x as [p0 p1 p2].
    cbn [ap_normal ap_rollover ap_alternate] in *.
    entries H0 Appearance_head Appearance_doc AppearanceEntry_reads.
    entries H1 Appearance_head Appearance_doc AppearanceEntry_reads.
    entries H2 Appearance_head Appearance_doc AppearanceEntry_reads.
    unfold read_appearances. cbn [object_dict bind].
    rewrite (same_found (lit "N") AppearanceEntry_reads _ _ _ p0 Q H0 looks_found). cbn [bind].
    rewrite (same_found (lit "R") AppearanceEntry_reads _ _ _ p1 Q H1 looks_found). cbn [bind].
    rewrite (same_found (lit "D") AppearanceEntry_reads _ _ _ p2 Q H2 looks_found). cbn [bind].
    reflexivity.
  Qed.
  Lemma remark_found calls x id d : remark_written decode ops calls x -> resolved id = Some (IObj id 0 (VDict d)) -> is_dict (annotation_entries calls) (VDict d) ->
    exists r, read_remark decode resolved (VRef id 0) = Some r /\ remark_is x r.
  Proof using R.
    intros (H0 & H1 & H2 & H3 & H4 & H5 & H6 & H7 & H8 & H9 & H10 & H11 & H12 & H13 & H14 & H15 & H16 & H17 & H18 & H19) E Q.  destruct x as [p0 p1 p2 p3 p4 p5 p6 p7 p8 p9 p10 p11 p12 p13 p14 p15 p16 p17 p18 p19].
    cbn [rm_contents rm_page rm_name rm_modified rm_state rm_looks rm_frame rm_border rm_color rm_key rm_highlight rm_author rm_subject rm_quads rm_line rm_file rm_icon rm_characteristics rm_parent rm_files] in *.
    acall H0 is_textlike.
    acall H1 is_ref.
    acall H2 is_textlike.
    acall H4 is_name.
    acall H6 border_reads.
    acall H8 is_reals.
    acall H9 is_int.
    acall H10 is_HighlightEffect.
    mcall H11 is_textlike.
    acall H12 is_textlike.
    acall H13 is_reals.
    acall H14 is_reals.
    mcall H18 is_ref.
    destruct (related_found (lit "Border") border_reads _ _ _ _ p6 Q H6 border_related) as (r6 & E6 & X6).
    assert (Y7 : exists r, optional (lit "BS") d (read_border_of resolved) = Some r /\ optionally border_of_is p7 r).
    { apply (part_related (lit "BS") BorderStyle_reads _ border_of_written _ _ _ d p7 Q) with (2 := H7); [intros c H; acall H BorderStyle_reads; exact H|exact border_of_found]. }
    destruct Y7 as (r7 & E7 & X7).
    destruct (related_found (lit "C") is_reals _ _ _ _ p8 Q H8 numbers_found) as (r8 & E8 & X8).
    destruct (related_found (lit "QuadPoints") is_reals _ _ _ _ p13 Q H13 numbers_found) as (r13 & E13 & X13).
    destruct (related_found (lit "L") is_reals _ _ _ _ p14 Q H14 numbers_found) as (r14 & E14 & X14).
    assert (Y17 : exists r, optional (lit "MK") d (read_characteristics resolved) = Some r /\ optionally characteristics_is p17 r).
    { apply (part_related (lit "MK") AppearanceCharacteristics_reads _ characteristics_written _ _ _ d p17 Q) with (2 := H17); [intros c H; acall H AppearanceCharacteristics_reads; exact H|exact characteristics_found]. }
    destruct Y17 as (r17 & E17 & X17).
    exists (mkRemark p0 p1 p2 p3 p4 p5 r6 r7 r8 p9 p10 p11 p12 r13 r14 p15 p16 r17 p18 p19).
    split; [|unfold remark_is; repeat (split; [first [reflexivity|assumption]|]); first [reflexivity|assumption]].
    unfold read_remark. cbn [object_dict]. rewrite E. cbn [bind].
    rewrite (text_option_found _ _ (lit "Contents") p0 Q H0). cbn [bind].
    rewrite (same_found (lit "P") is_ref _ _ _ p1 Q H1 id_found). cbn [bind].
    rewrite (text_option_found _ _ (lit "NM") p2 Q H2). cbn [bind].
    rewrite (date_part_found _ d (lit "M") _ p3 Q) with (2 := H3) by (intros c H; acall H is_date_of; exact H). cbn [bind].
    rewrite (same_found (lit "AS") is_name _ _ _ p4 Q H4 name_found). cbn [bind].
    rewrite (part_same (lit "AP") Appearance_reads _ appearances_written _ _ d p5 Q) with (2 := H5); [|intros c H; acall H Appearance_reads; exact H|exact appearances_found]. cbn [bind].
    rewrite E6. cbn [bind].
    rewrite E7. cbn [bind].
    rewrite E8. cbn [bind].
    rewrite (same_found (lit "StructParent") is_int _ _ _ p9 Q H9 whole_found). cbn [bind].
    rewrite (same_found (lit "H") is_HighlightEffect _ _ _ p10 Q H10 (enum_found _)). cbn [bind].
    rewrite (text_option_found _ _ (lit "T") p11 Q H11). cbn [bind].
    rewrite (text_option_found _ _ (lit "Subj") p12 Q H12). cbn [bind].
    rewrite E13. cbn [bind].
    rewrite E14. cbn [bind].
    rewrite (part_same (lit "FS") FileSpec_reads _ (file_written decode ops) _ _ d p15 Q) with (2 := H15); [|intros c H; acall H FileSpec_reads; exact H|exact (file_found decode resolved ops R)]. cbn [bind].
    rewrite (part_same (lit "Name") is_AnnotationIcon _ (fun x y => x = y /\ icon_apart x) _ _ d p16 Q) with (2 := H16); [|intros c H; acall H is_AnnotationIcon; exact H|intros x y v [-> H]; exact (icon_found y v H)]. cbn [bind].
    rewrite E17. cbn [bind].
    rewrite (same_found (lit "Parent") is_ref _ _ _ p18 Q H18 id_found). cbn [bind].
    rewrite (part_same (lit "AF") (is_array_of FileSpec_reads) _ (Forall2 (file_written decode ops)) _ _ d p19 Q) with (2 := H19); [|intros c H; acall H (is_array_of FileSpec_reads); exact H|intros c a v; apply all_found; exact (file_found decode resolved ops R)]. cbn [bind].
    reflexivity.
  Qed.
  Lemma page_marks_found page l d : page_marks decode ops page l -> resolved page = Some (IObj page 0 (VDict d)) ->
    exists rs, read_page_marks decode resolved d = Some rs /\ Forall2 remark_is (map snd l) rs.
  Proof using R.
    intros [(calls & I & H) W] E. destruct (found resolved ops R _ _ I) as (i & E' & v & -> & D). rewrite E in E'. apply some_inj in E'.
    assert (v = VDict d) as -> by congruence.
    assert (Y : exists rs, SpecNav.all_of (map (read_remark decode resolved) (map (fun id => VRef id 0) (map fst l))) = Some rs /\ Forall2 remark_is (map snd l) rs).
    { clear - R W. induction W as [|[id x] l (calls & I & W) F (rs & E1 & E2)]; [exists []; split; [reflexivity|constructor]|]. cbn [fst snd] in *.
      destruct (entries_found resolved ops R _ _ I) as (d & E & D). destruct (remark_found calls x id d W E D) as (r & X & Y). exists (r :: rs).
      cbn [map SpecNav.all_of fst snd]. rewrite X, E1. split; [reflexivity|constructor; assumption]. }
    destruct Y as (rs & Y1 & Y2). exists rs. split; [|exact Y2]. unfold read_page_marks. destruct H as [[N H]|H].
    - entries H Page_head Page_doc is_refs. rewrite (dict_lookup_none _ _ _ D H). destruct l; [|discriminate N]. exact Y1.
    - entries H Page_head Page_doc is_refs. destruct (dict_lookup _ _ _ _ D H) as (v & L & vs & -> & Q). rewrite L. apply refs_found in Q. subst vs. exact Y1.
  Qed.
End Walk.

(** A reader that starts from the trailer finds the annotations of every page in order, with all that was given for them. *)
Theorem C88_annotations : forall decode ops cat file calls tree marks,
  finished_document decode ops cat file -> In (DocCatalog cat calls) ops ->
  pages_written ops calls tree -> Forall2 (page_marks decode ops) (it_pages tree) marks ->
  exists rs depth, Forall2 (Forall2 remark_is) (map (map snd) marks) rs /\ forall n, (depth <= n)%nat -> read_marks decode n file = Some rs.
Proof.
  intros decode ops cat file calls tree marks D I P W. destruct (document_facts _ _ _ _ D) as [X _]. destruct (pages_found _ _ _ _ _ _ D I P) as (ds & F & E).
  assert (Y : exists rs, SpecNav.all_of (map (fun p => read_page_marks decode (resolve decode file) (snd p)) ds) = Some rs /\ Forall2 (Forall2 remark_is) (map (map snd) marks) rs).
  { clear - F W X. revert marks W. induction F as [|id e ids ds [_ F1] F IH]; intros marks W; inversion W as [|? l ? ls W1 W2]; subst; [exists []; split; [reflexivity|constructor]|].
    destruct (IH ls W2) as (rs & B1 & B2). destruct (page_marks_found decode _ ops X id l (snd e) W1 F1) as (r & C1 & C2).
    exists (r :: rs). cbn [map SpecNav.all_of]. rewrite C1, B1. split; [reflexivity|constructor; assumption]. }
  destruct Y as (rs & Y1 & Y2). exists rs, (it_depth tree). split; [exact Y2|]. intros n Hn. unfold read_marks. rewrite E by exact Hn. exact Y1.
Qed.

(** ** A document that meets the hypotheses *)
Definition mark_date : date := mkDate 2024 (Some 2) (Some 3) None None None None 0.
Definition stamp_calls : Annotation_calls := [
  Typed (Annotation_subtype AnnotationType_Highlight); Typed (Annotation_contents (TextPlain [72; 105])); Typed (Annotation_page 3); Typed (Annotation_name (TextPlain [110]));
  Typed (Annotation_modified mark_date); Typed (Annotation_border one f32_zero one (Some [one; f32_zero]));
  Typed (Annotation_border_style [Typed (BorderStyle_width one); Typed (BorderStyle_style BorderType_Dashed); Typed (BorderStyle_dashes [one])]);
  Typed (Annotation_color_rgb one f32_zero one); Typed (Annotation_struct_parent 7); Typed (Annotation_author (TextPlain [65])); Typed (Annotation_subject (TextPlain [66]));
  Typed (Annotation_quad_points [one; one; f32_zero; f32_zero]); Typed (Annotation_icon (AnnotationIcon_Custom (lit "Mine")));
  Typed (Annotation_file_spec [Typed (FileSpec_path (lit "a.txt"))]);
  Typed (Annotation_appearance [Typed (Appearance_normal (AppearanceEntry_stream 8)); Typed (Appearance_rollover (AppearanceEntry_streams [(lit "On", 9); (lit "Off", 10)]))]);
  Typed (Annotation_appearance_state (lit "On"))].
Definition button_calls : Field_calls := [Typed (Field_partial_name [98]); Typed (Field_parent 20); Typed (Field_into_annotation [
  Typed (Annotation_highlight HighlightEffect_Push);
  Typed (Annotation_appearance_characteristics [Typed (AppearanceCharacteristics_rotate 90); Typed (AppearanceCharacteristics_border_color_gray one);
    Typed AppearanceCharacteristics_background_color_transparent; Typed (AppearanceCharacteristics_normal_caption (TextPlain [79; 75]));
    Typed (AppearanceCharacteristics_normal_icon 11); Typed (AppearanceCharacteristics_icon_fit [Typed (IconFit_scale IconScale_Never); Typed (IconFit_leftover_space one f32_zero)]);
    Typed (AppearanceCharacteristics_text_position TextPosition_Overlaid)])])].
Definition mark_sample : list doc_op := [
  DocTyped 2 (Ck_pages [Typed (Pages_kids [3])]);
  DocTyped 3 (Ck_page [Typed (Page_annotations [4; 5])]);
  DocTyped 4 (Ck_annotation stamp_calls);
  DocTyped 5 (Ck_form_field button_calls);
  DocCatalog 1 [Typed (Catalog_pages 2)]].
Definition marks_asked : list (Z * remark f32) := [
  (4, mkRemark (Some [72; 105]) (Some 3) (Some [110]) (Some (date_reading mark_date)) (Some (lit "On"))
    (Some (mkAppearances (Some (AppearanceEntry_stream 8)) (Some (AppearanceEntry_streams [(lit "On", 9); (lit "Off", 10)])) None))
    (Some (one, f32_zero, one, Some [one; f32_zero])) (Some (mkBorderOf (Some one) (Some BorderType_Dashed) (Some [one]))) (Some [one; f32_zero; one]) (Some 7) None
    (Some [65]) (Some [66]) (Some [one; one; f32_zero; f32_zero]) None (Some (mkFile None (Some (lit "a.txt")) None None None None None))
    (Some (AnnotationIcon_Custom (lit "Mine"))) None None None);
  (5, mkRemark None None None None None None None None None None (Some HighlightEffect_Push) (Some [98]) None None None None None
    (Some (mkCharacteristics (Some 90) (Some [one]) (Some []) (Some [79; 75]) None None (Some 11) None None
      (Some (mkFitOf (Some IconScale_Never) None (Some [one; f32_zero]) None)) (Some TextPosition_Overlaid))) (Some 20) None)].
Ltac there := cbn [mark_sample In]; tauto.
Example C88_case : pages_written mark_sample [Typed (Catalog_pages 2)] (ItNode 2 [ItPage 3]) /\ Forall2 (page_marks no_filter mark_sample) [3] [marks_asked].
Proof.
  split; [split; [reflexivity|]; split; [eexists; split; [there|reflexivity]|]; split; [eexists; there|exact Logic.I]|].
  apply Forall2_cons; [|apply Forall2_nil]. split; [eexists; split; [there|right; reflexivity]|].
  apply Forall_cons; [|apply Forall_cons; [|apply Forall_nil]].
  - exists (inl stamp_calls). split; [there|]. do 3 (split; [reflexivity|]). split; [eexists; split; reflexivity|]. split; [reflexivity|].
    split; [eexists; split; [reflexivity|repeat split]|]. split; [reflexivity|]. split; [eexists; split; [reflexivity|repeat split]|]. do 7 (split; [reflexivity|]).
    split; [eexists; split; [reflexivity|repeat split]|]. split; [eexists; split; [reflexivity|split; reflexivity]|]. repeat split.
  - exists (inr button_calls). split; [there|]. do 17 (split; [reflexivity|]). split; [|split; reflexivity]. eexists. split; [reflexivity|].
    do 9 (split; [reflexivity|]). split; [eexists; split; [reflexivity|repeat split]|]. reflexivity.
Qed.
Definition marks_seen (l : option (list (list (remark val)))) : option (list Z * bytes * bytes * list (bytes * Z) * list Z) :=
  match l with
  | Some [[mkRemark (Some text) (Some 3) (Some [110]) (Some date) (Some _) (Some (mkAppearances (Some (AppearanceEntry_stream 8)) (Some (AppearanceEntry_streams states)) None))
      (Some (VInt 1, VInt 0, VInt 1, Some [VInt 1; VInt 0])) (Some (mkBorderOf (Some (VInt 1)) (Some BorderType_Dashed) (Some [VInt 1]))) (Some [VInt 1; VInt 0; VInt 1]) (Some 7) None
      (Some [65]) (Some [66]) (Some [VInt 1; VInt 1; VInt 0; VInt 0]) None (Some (mkFile None (Some path) None None None None None)) (Some (AnnotationIcon_Custom icon)) None None None;
      mkRemark None None None None None None None None None None (Some HighlightEffect_Push) (Some [98]) None None None None None
        (Some (mkCharacteristics (Some 90) (Some [VInt 1]) (Some []) (Some caption) None None (Some 11) None None
          (Some (mkFitOf (Some IconScale_Never) None (Some [VInt 1; VInt 0]) None)) (Some TextPosition_Overlaid))) (Some 20) None]] =>
      Some (text, path, icon, states, caption)
  | _ => None
  end.
Definition marks_result := Some ([72; 105], lit "a.txt", lit "Mine", [(lit "On", 9); (lit "Off", 10)], [79; 75]).
Example C88_file : exists file, finished_document no_filter mark_sample 1 file /\ marks_seen (read_marks no_filter 4 file) = marks_result.
Proof.
  assert (X : match doc_run mark_sample (pdf_with_settings true) with
              | Some p => match finish p with Some file => Some (blen file <=? 10 ^ 10, marks_seen (read_marks no_filter 4 file)) | None => None end
              | None => None end = Some (true, marks_result)) by (vm_compute; reflexivity).
  destruct (doc_run mark_sample (pdf_with_settings true)) as [p|] eqn:R; [|discriminate].
  destruct (finish p) as [file|] eqn:F; [|discriminate]. exists file. apply some_inj in X.
  split; [apply (finished_table _ _ _ _ true p); [|exact R|exact F| |apply Z.leb_le; exact (f_equal fst X)|reflexivity]|exact (f_equal snd X)].
  - repeat (apply Forall_cons; [cbn [doc_op_ok op_typed]; repeat split|]); apply Forall_nil.
  - unfold ids_below; repeat constructor.
Qed.

Print Assumptions C88_annotations.
