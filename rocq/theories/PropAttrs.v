(** C87: the attributes of the elements of tagged documents, from the trailer on. *)

From Coq Require Import ZArith List Bool Lia.
From Verif Require SpecInfo ModelCmap ModelContent SpecContent SpecForm PropForm SpecAppear PropAppear.
From Verif Require Import Bytes ModelFloat ModelBuf ModelObject ModelChunk ModelColor ModelSmall ModelPdf ModelTw ModelEnums ModelRoles ModelTwArgs
  ModelTwFiles ModelTwGraphics ModelTwAnnot ModelTwForms ModelTwAttr ModelTwXObj ModelTwFonts ModelTwDoc ModelFontDesc ModelDoc
  SpecLex SpecObj SpecText SpecMeans SpecRenum SpecChunk SpecFile SpecPdf SpecTyped SpecColor SpecSmall SpecTw SpecEnums SpecRoles SpecTwArgs
  SpecTwFiles SpecTwGraphics SpecTwAnnot SpecTwForms SpecTwAttr SpecTwXObj SpecTwFonts SpecTwDoc SpecFontDesc SpecDoc SpecPages SpecExtract SpecNav SpecViews SpecTagged SpecPaint SpecFunctions SpecActions SpecPresent SpecColors SpecImages SpecAttrs
  ProofBasic ProofTree ProofTyped ProofTw ProofTwDoc PropDoc PropPdf2 PropPages PropExtract PropNav PropTagged PropInfo PropPaint PropFunctions PropColors PropActions PropPresent PropImages.
Import ListNotations.
Local Open Scope Z_scope.

Lemma related_found k {A B} (P : A -> val -> Prop) (f : val -> option B) (Rel : A -> B -> Prop) xs d x : is_dict xs (VDict d) ->
  entries_for k xs = entry_or_none k (option_map P x) -> (forall a v, P a v -> exists b, f v = Some b /\ Rel a b) ->
  exists r, optional k d f = Some r /\ optionally Rel x r.
Proof.
  intros D E H. unfold optional. destruct x as [x|]; cbn [option_map entry_or_none] in E.
  - destruct (dict_lookup _ _ _ _ D E) as (v & L & V). destruct (H x v V) as (b & F & X). rewrite L, F. exists (Some b). split; [reflexivity|exact X].
  - rewrite (dict_lookup_none _ _ _ D E). exists None. split; [reflexivity|exact Logic.I].
Qed.
Lemma number_related x v : is_real x v -> exists b, read_number v = Some b /\ is_real x b.
Proof. intro V. exists v. split; [exact (number_found x v V)|exact V]. Qed.
Lemma color_related (c : f3) v : is_reals (in_order3 c) v -> exists b, read_numbers v = Some b /\ color_is c b.
Proof. intro V. exact (numbers_found _ _ V). Qed.
Lemma rect_related r v : is_rect r v -> exists b, read_numbers v = Some b /\ box_is r b.
Proof.
  intros (a & b & c & e & -> & V1 & V2 & V3 & V4). apply numbers_found. exists [a; b; c; e]. split; [reflexivity|repeat constructor; assumption].
Qed.
Lemma real_not_array x l : is_real x (VArr l) -> False.
Proof. intro V. apply number_found in V. discriminate V. Qed.
Lemma tracks_related c v : TrackSizes_reads c v -> exists b, read_tracks v = Some b /\ tracks_are c b.
Proof.
  destruct c as [x|l]; cbn [TrackSizes_reads]; intro V.
  - exists (OneSize v). split; [|exact V]. unfold read_tracks. pose proof (number_found x v V) as N. destruct v; try discriminate N; reflexivity.
  - destruct (numbers_found _ _ V) as (ws & W1 & W2). destruct V as (vs & -> & _). exists (EachSize ws). split; [|exact W2]. unfold read_tracks. rewrite W1. reflexivity.
Qed.
Lemma height_related h v : is_LineHeight h v -> exists b, read_height v = Some b /\ height_is h b.
Proof.
  destruct h as [| |x]; cbn [is_LineHeight]; intro V.
  - subst v. exists NormalHeight. split; [reflexivity|exact Logic.I].
  - subst v. exists AutoHeight. split; [reflexivity|exact Logic.I].
  - exists (Height v). split; [|exact V]. pose proof (number_found x v V) as N. destruct v; try discriminate N; reflexivity.
Qed.
Lemma orientation_found o v : is_GlyphOrientationVertical o v -> read_orientation v = Some o.
Proof. destruct o; cbn [is_GlyphOrientationVertical]; intros ->; reflexivity. Qed.
Lemma sides_related {A B} split (P : A -> val -> Prop) (f : val -> option B) (Rel : A -> B -> Prop) (s : sides A) v a b c d :
  (forall x v, P x v -> exists y, f v = Some y /\ Rel x y) -> split v = Some (a, b, c, d) ->
  P (s_before s) a -> P (s_after s) b -> P (s_start s) c -> P (s_end s) d -> exists t, read_sides split f v = Some t /\ sides_are Rel s t.
Proof.
  intros H E V1 V2 V3 V4. destruct (H _ _ V1) as (y1 & F1 & R1), (H _ _ V2) as (y2 & F2 & R2), (H _ _ V3) as (y3 & F3 & R3), (H _ _ V4) as (y4 & F4 & R4).
  exists (mkSides y1 y2 y3 y4). split; [|repeat split; assumption]. unfold read_sides. rewrite E. cbn [bind]. rewrite F1, F2, F3, F4. reflexivity.
Qed.
Lemma side_numbers_related s v : is_sides_reals s v -> exists b, read_sides read_scalar_sides read_number v = Some b /\ sides_are is_real s b.
Proof. intros (a & b & c & d & E & V1 & V2 & V3 & V4). exact (sides_related read_scalar_sides is_real read_number is_real s v a b c d number_related E V1 V2 V3 V4). Qed.
Lemma side_colors_related s v : is_sides_colors s v -> exists b, read_sides read_color_sides read_numbers v = Some b /\ sides_are color_is s b.
Proof.
  intros (a & b & c & d & E & V1 & V2 & V3 & V4).
  exact (sides_related read_color_sides (fun c : f3 => is_reals (in_order3 c)) read_numbers color_is s v a b c d color_related E V1 V2 V3 V4).
Qed.
Lemma style_found b : read_named border_styles (VName (iso_border_style b)) = Some b.
Proof. destruct b; reflexivity. Qed.
Lemma styles_found s v : is_sides_styles s v -> read_sides read_scalar_sides (read_named border_styles) v = Some s.
Proof.
  intros (a & b & c & d & E & -> & -> & -> & ->). unfold read_sides. rewrite E. cbn [bind]. rewrite !style_found. cbn [bind]. destruct s. reflexivity.
Qed.
Lemma open_found {E} (table : list (bytes * E)) other x v : is_named table x v -> read_open table other v = Some x.
Proof. intros (n & -> & B). unfold read_open. cbn [read_name bind]. rewrite B. reflexivity. Qed.
Lemma subtype_found x v : subtype_apart x -> is_ArtifactSubtype x v -> read_open ArtifactSubtype_table ArtifactSubtype_Custom v = Some x.
Proof.
  intros A V. destruct x; try (apply open_found; exact V). cbn [subtype_apart is_ArtifactSubtype] in *. subst v. unfold read_open. cbn [read_name bind]. rewrite A. reflexivity.
Qed.
Lemma alphabet_found x v : alphabet_apart x -> is_PhoneticAlphabet x v -> read_open PhoneticAlphabet_table PhoneticAlphabet_Custom v = Some x.
Proof.
  intros A V. destruct x; try (apply open_found; exact V). cbn [alphabet_apart is_PhoneticAlphabet] in *. subst v. unfold read_open. cbn [read_name bind]. rewrite A. reflexivity.
Qed.
Lemma strings_found l v : is_array_of is_str l v -> read_list read_string v = Some l.
Proof. intro V. rewrite <- (map_id l). exact (list_found is_str read_string (fun x => x) str_found l v V). Qed.
(** Lists of parts, related. *)
Lemma all_related {C A B} (P : C -> A -> Prop) (Q : C -> val -> Prop) (f : val -> option B) (Rel : A -> B -> Prop) :
  (forall c a v, P c a -> Q c v -> exists b, f v = Some b /\ Rel a b) -> forall cs l v, Forall2 P cs l -> is_array_of Q cs v ->
  exists r, read_list f v = Some r /\ Forall2 Rel l r.
Proof.
  intros H cs l v F (vs & -> & V). cbn [read_list]. revert vs V. induction F as [|c a cs l W F IH]; intros vs V; inversion V as [|? v ? vs' V1 V2]; subst.
  - exists []. split; [reflexivity|constructor].
  - destruct (H _ _ _ W V1) as (b & E & X), (IH _ V2) as (r & E' & X'). exists (b :: r). split; [|constructor; assumption]. cbn [map SpecNav.all_of]. rewrite E, E'. reflexivity.
Qed.

(** ** Attributes *)
Section Walk.
  Variables (decode : option val -> bytes -> option bytes) (resolved : Z -> option indirect) (ops : list doc_op).
  Hypothesis R : Forall (fun op => doc_op_reads op resolved) ops.

  Lemma layout_found calls l d : layout_written calls l -> is_dict (writer_doc LayoutAttributes_head LayoutAttributes_doc calls) (VDict d) ->
    exists r, read_layout d = Some r /\ layout_is l r.
  Proof using Type.
    intros (H0 & H1 & H2 & H3 & H4 & H5 & H6 & H7 & H8 & H9 & H10 & H11 & H12 & H13 & H14 & H15 & H16 & H17 & H18 & H19 & H20 & H21 & H22 & H23 & H24 & H25 & H26 & H27 & H28 & H29 & H30 & H31 & H32) Q. destruct l as [p0 p1 p2 p3 p4 p5 p6 p7 p8 p9 p10 p11 p12 p13 p14 p15 p16 p17 p18 p19 p20 p21 p22 p23 p24 p25 p26 p27 p28 p29 p30 p31 p32].
    cbn [la_placement la_writing la_background la_border_color la_border_style la_border_thickness la_padding la_color la_before la_after la_start la_end la_text la_align la_width la_height la_box la_block la_inline la_table_style la_table_padding la_columns la_column_widths la_column_gap la_line_height la_shift la_position la_decoration la_decoration_color la_decoration_thickness la_orientation la_ruby_align la_ruby_position] in *.
    entries H0 LayoutAttributes_head LayoutAttributes_doc is_Placement.
    entries H1 LayoutAttributes_head LayoutAttributes_doc is_WritingMode.
    entries H2 LayoutAttributes_head LayoutAttributes_doc (fun c : f3 => is_reals (in_order3 c)).
    entries H3 LayoutAttributes_head LayoutAttributes_doc is_sides_colors.
    entries H4 LayoutAttributes_head LayoutAttributes_doc is_sides_styles.
    entries H5 LayoutAttributes_head LayoutAttributes_doc is_sides_reals.
    entries H6 LayoutAttributes_head LayoutAttributes_doc is_sides_reals.
    entries H7 LayoutAttributes_head LayoutAttributes_doc (fun c : f3 => is_reals (in_order3 c)).
    entries H8 LayoutAttributes_head LayoutAttributes_doc is_real.
    entries H9 LayoutAttributes_head LayoutAttributes_doc is_real.
    entries H10 LayoutAttributes_head LayoutAttributes_doc is_real.
    entries H11 LayoutAttributes_head LayoutAttributes_doc is_real.
    entries H12 LayoutAttributes_head LayoutAttributes_doc is_real.
    entries H13 LayoutAttributes_head LayoutAttributes_doc is_TextAlign.
    entries H14 LayoutAttributes_head LayoutAttributes_doc is_real.
    entries H15 LayoutAttributes_head LayoutAttributes_doc is_real.
    entries H16 LayoutAttributes_head LayoutAttributes_doc is_rect.
    entries H17 LayoutAttributes_head LayoutAttributes_doc is_BlockAlign.
    entries H18 LayoutAttributes_head LayoutAttributes_doc is_InlineAlign.
    entries H19 LayoutAttributes_head LayoutAttributes_doc is_sides_styles.
    entries H20 LayoutAttributes_head LayoutAttributes_doc is_sides_reals.
    entries H21 LayoutAttributes_head LayoutAttributes_doc is_int.
    entries H22 LayoutAttributes_head LayoutAttributes_doc TrackSizes_reads.
    entries H23 LayoutAttributes_head LayoutAttributes_doc TrackSizes_reads.
    entries H24 LayoutAttributes_head LayoutAttributes_doc is_LineHeight.
    entries H25 LayoutAttributes_head LayoutAttributes_doc is_real.
    entries H26 LayoutAttributes_head LayoutAttributes_doc is_LayoutTextPosition.
    entries H27 LayoutAttributes_head LayoutAttributes_doc is_TextDecorationType.
    entries H28 LayoutAttributes_head LayoutAttributes_doc (fun c : f3 => is_reals (in_order3 c)).
    entries H29 LayoutAttributes_head LayoutAttributes_doc is_real.
    entries H30 LayoutAttributes_head LayoutAttributes_doc is_GlyphOrientationVertical.
    entries H31 LayoutAttributes_head LayoutAttributes_doc is_RubyAlign.
    entries H32 LayoutAttributes_head LayoutAttributes_doc is_RubyPosition.
    destruct (related_found (lit "BackgroundColor") (fun c : f3 => is_reals (in_order3 c)) _ _ _ _ p2 Q H2 color_related) as (r2 & E2 & X2).
    destruct (related_found (lit "BorderColor") is_sides_colors _ _ _ _ p3 Q H3 side_colors_related) as (r3 & E3 & X3).
    destruct (related_found (lit "BorderThickness") is_sides_reals _ _ _ _ p5 Q H5 side_numbers_related) as (r5 & E5 & X5).
    destruct (related_found (lit "Padding") is_sides_reals _ _ _ _ p6 Q H6 side_numbers_related) as (r6 & E6 & X6).
    destruct (related_found (lit "Color") (fun c : f3 => is_reals (in_order3 c)) _ _ _ _ p7 Q H7 color_related) as (r7 & E7 & X7).
    destruct (related_found (lit "SpaceBefore") is_real _ _ _ _ p8 Q H8 number_related) as (r8 & E8 & X8).
    destruct (related_found (lit "SpaceAfter") is_real _ _ _ _ p9 Q H9 number_related) as (r9 & E9 & X9).
    destruct (related_found (lit "StartIndent") is_real _ _ _ _ p10 Q H10 number_related) as (r10 & E10 & X10).
    destruct (related_found (lit "EndIndent") is_real _ _ _ _ p11 Q H11 number_related) as (r11 & E11 & X11).
    destruct (related_found (lit "TextIndent") is_real _ _ _ _ p12 Q H12 number_related) as (r12 & E12 & X12).
    destruct (related_found (lit "Width") is_real _ _ _ _ p14 Q H14 number_related) as (r14 & E14 & X14).
    destruct (related_found (lit "Height") is_real _ _ _ _ p15 Q H15 number_related) as (r15 & E15 & X15).
    destruct (related_found (lit "BBox") is_rect _ _ _ _ p16 Q H16 rect_related) as (r16 & E16 & X16).
    destruct (related_found (lit "TPadding") is_sides_reals _ _ _ _ p20 Q H20 side_numbers_related) as (r20 & E20 & X20).
    destruct (related_found (lit "ColumnWidths") TrackSizes_reads _ _ _ _ p22 Q H22 tracks_related) as (r22 & E22 & X22).
    destruct (related_found (lit "ColumnGap") TrackSizes_reads _ _ _ _ p23 Q H23 tracks_related) as (r23 & E23 & X23).
    destruct (related_found (lit "LineHeight") is_LineHeight _ _ _ _ p24 Q H24 height_related) as (r24 & E24 & X24).
    destruct (related_found (lit "BaselineShift") is_real _ _ _ _ p25 Q H25 number_related) as (r25 & E25 & X25).
    destruct (related_found (lit "TextDecorationColor") (fun c : f3 => is_reals (in_order3 c)) _ _ _ _ p28 Q H28 color_related) as (r28 & E28 & X28).
    destruct (related_found (lit "TextDecorationThickness") is_real _ _ _ _ p29 Q H29 number_related) as (r29 & E29 & X29).
    exists (mkLayout p0 p1 r2 r3 p4 r5 r6 r7 r8 r9 r10 r11 r12 p13 r14 r15 r16 p17 p18 p19 r20 p21 r22 r23 r24 r25 p26 p27 r28 r29 p30 p31 p32).
    split; [unfold read_layout|repeat (split; [first [reflexivity|assumption]|]); first [reflexivity|assumption]].
    rewrite (same_found (lit "Placement") is_Placement _ _ _ p0 Q H0 (enum_found _)). cbn [bind].
    rewrite (same_found (lit "WritingMode") is_WritingMode _ _ _ p1 Q H1 (enum_found _)). cbn [bind].
    rewrite E2. cbn [bind].
    rewrite E3. cbn [bind].
    rewrite (same_found (lit "BorderStyle") is_sides_styles _ _ _ p4 Q H4 styles_found). cbn [bind].
    rewrite E5. cbn [bind].
    rewrite E6. cbn [bind].
    rewrite E7. cbn [bind].
    rewrite E8. cbn [bind].
    rewrite E9. cbn [bind].
    rewrite E10. cbn [bind].
    rewrite E11. cbn [bind].
    rewrite E12. cbn [bind].
    rewrite (same_found (lit "TextAlign") is_TextAlign _ _ _ p13 Q H13 (enum_found _)). cbn [bind].
    rewrite E14. cbn [bind].
    rewrite E15. cbn [bind].
    rewrite E16. cbn [bind].
    rewrite (same_found (lit "BlockAlign") is_BlockAlign _ _ _ p17 Q H17 (enum_found _)). cbn [bind].
    rewrite (same_found (lit "InlineAlign") is_InlineAlign _ _ _ p18 Q H18 (enum_found _)). cbn [bind].
    rewrite (same_found (lit "TBorderStyle") is_sides_styles _ _ _ p19 Q H19 styles_found). cbn [bind].
    rewrite E20. cbn [bind].
    rewrite (same_found (lit "ColumnCount") is_int _ _ _ p21 Q H21 whole_found). cbn [bind].
    rewrite E22. cbn [bind].
    rewrite E23. cbn [bind].
    rewrite E24. cbn [bind].
    rewrite E25. cbn [bind].
    rewrite (same_found (lit "TextPosition") is_LayoutTextPosition _ _ _ p26 Q H26 (enum_found _)). cbn [bind].
    rewrite (same_found (lit "TextDecorationType") is_TextDecorationType _ _ _ p27 Q H27 (enum_found _)). cbn [bind].
    rewrite E28. cbn [bind].
    rewrite E29. cbn [bind].
    rewrite (same_found (lit "GlyphOrientationVertical") is_GlyphOrientationVertical _ _ _ p30 Q H30 orientation_found). cbn [bind].
    rewrite (same_found (lit "RubyAlign") is_RubyAlign _ _ _ p31 Q H31 (enum_found _)). cbn [bind].
    rewrite (same_found (lit "RubyPosition") is_RubyPosition _ _ _ p32 Q H32 (enum_found _)). cbn [bind].
    reflexivity.
  Qed.
  Lemma list_of_found calls l d : list_written calls l -> is_dict (writer_doc ListAttributes_head ListAttributes_doc calls) (VDict d) -> read_list_of d = Some l.
  Proof using Type.
    intros (H1 & H2 & H3) Q. destruct l as [p1 p2 p3]. cbn [ls_numbering ls_continued ls_from] in *.
    entries H1 ListAttributes_head ListAttributes_doc is_ListNumbering. entries H2 ListAttributes_head ListAttributes_doc is_bool.
    entries H3 ListAttributes_head ListAttributes_doc is_str. unfold read_list_of.
    rewrite (same_found (lit "ListNumbering") is_ListNumbering _ _ _ p1 Q H1 (enum_found _)). cbn [bind].
    rewrite (same_found (lit "ContinuedList") is_bool _ _ _ p2 Q H2 bool_found). cbn [bind].
    rewrite (same_found (lit "ContinuedFrom") is_str _ _ _ p3 Q H3 str_found). reflexivity.
  Qed.
  Lemma field_of_found calls f d : field_written calls f -> is_dict (writer_doc FieldAttributes_head FieldAttributes_doc calls) (VDict d) -> read_field_of d = Some f.
  Proof using Type.
    intros (H1 & H2 & H3 & H4) Q. destruct f as [p1 p2 p3 p4]. cbn [fd_role fd_checked fd_checked2 fd_description] in *.
    apply (called_entries _ _ is_FieldRole FieldAttributes_head FieldAttributes_doc) in H1; [|reflexivity|intros [?|? []|?]; reflexivity].
    apply (called_entries _ _ is_FieldState FieldAttributes_head FieldAttributes_doc) in H2; [|reflexivity|intros [?|? []|?]; reflexivity].
    apply (called_entries _ _ is_FieldState FieldAttributes_head FieldAttributes_doc) in H3; [|reflexivity|intros [?|? []|?]; reflexivity].
    apply (called_entries _ _ is_textlike FieldAttributes_head FieldAttributes_doc) in H4; [|reflexivity|intros [?|? []|?]; reflexivity]. unfold read_field_of.
    rewrite (same_found (lit "Role") is_FieldRole _ _ _ p1 Q H1 (enum_found _)). cbn [bind].
    rewrite (same_found (lit "checked") is_FieldState _ _ _ p2 Q H2 (enum_found _)). cbn [bind].
    rewrite (same_found (lit "Checked") is_FieldState _ _ _ p3 Q H3 (enum_found _)). cbn [bind].
    rewrite (text_option_found _ _ (lit "Desc") p4 Q H4). reflexivity.
  Qed.
  Lemma table_of_found calls t d : table_written calls t -> is_dict (writer_doc TableAttributes_head TableAttributes_doc calls) (VDict d) -> read_table_of d = Some t.
  Proof using Type.
    intros (H1 & H2 & H3 & H4 & H5 & H6) Q. destruct t as [p1 p2 p3 p4 p5 p6]. cbn [tb_rows tb_columns tb_headers tb_scope tb_summary tb_short] in *.
    entries H1 TableAttributes_head TableAttributes_doc is_int. entries H2 TableAttributes_head TableAttributes_doc is_int.
    entries H3 TableAttributes_head TableAttributes_doc (is_array_of is_str). entries H4 TableAttributes_head TableAttributes_doc is_TableHeaderScope.
    entries H5 TableAttributes_head TableAttributes_doc is_textlike. entries H6 TableAttributes_head TableAttributes_doc is_textlike. unfold read_table_of.
    rewrite (same_found (lit "RowSpan") is_int _ _ _ p1 Q H1 whole_found). cbn [bind]. rewrite (same_found (lit "ColSpan") is_int _ _ _ p2 Q H2 whole_found). cbn [bind].
    rewrite (same_found (lit "Headers") (is_array_of is_str) _ _ _ p3 Q H3 strings_found). cbn [bind].
    rewrite (same_found (lit "Scope") is_TableHeaderScope _ _ _ p4 Q H4 (enum_found _)). cbn [bind].
    rewrite (text_option_found _ _ (lit "Summary") p5 Q H5). cbn [bind]. rewrite (text_option_found _ _ (lit "Short") p6 Q H6). reflexivity.
  Qed.
  Lemma artifact_of_found calls a d : artifact_written calls a -> is_dict (writer_doc ArtifactAttributes_head ArtifactAttributes_doc calls) (VDict d) ->
    exists r, read_artifact_of d = Some r /\ artifact_is a r.
  Proof using Type.
    intros (H1 & H2 & H3) Q. destruct a as [p1 p2 p3]. cbn [af_type af_box af_subtype] in *.
    entries H1 ArtifactAttributes_head ArtifactAttributes_doc is_ArtifactType. entries H2 ArtifactAttributes_head ArtifactAttributes_doc is_rect.
    destruct (related_found (lit "BBox") is_rect _ _ _ _ p2 Q H2 rect_related) as (r2 & E2 & X2).
    exists (mkArtifactOf p1 r2 p3). split; [|split; [reflexivity|split; [exact X2|reflexivity]]]. unfold read_artifact_of.
    rewrite (same_found (lit "Type") is_ArtifactType _ _ _ p1 Q H1 (enum_found _)). cbn [bind]. rewrite E2. cbn [bind].
    rewrite (part_same (lit "Subtype") is_ArtifactSubtype _ (fun x y => x = y /\ subtype_apart x) _ _ d p3 Q) with (2 := H3);
      [reflexivity|intros c H; entries H ArtifactAttributes_head ArtifactAttributes_doc is_ArtifactSubtype; exact H|].
    intros x y v [-> A]. exact (subtype_found y v A).
  Qed.
  Lemma property_found calls p v : property_written calls p -> UserProperty_reads calls v -> exists r, read_property resolved v = Some r /\ property_is p r.
  Proof using Type.
    intros (H1 & H2 & H3 & H4) Q. destruct (dict_is _ _ Q) as [d ->]. destruct p as [p1 p2 p3 p4]. cbn [up_name up_value up_format up_hidden] in *.
    entries H1 UserProperty_head UserProperty_doc is_textlike. entries H2 UserProperty_head UserProperty_doc means.
    entries H3 UserProperty_head UserProperty_doc is_textlike. entries H4 UserProperty_head UserProperty_doc is_bool.
    destruct (related_found (lit "V") means (@Some val) means _ _ p2 Q H2) as (r2 & E2 & X2); [intros a v V; exists v; split; [reflexivity|exact V]|].
    exists (mkPropertyOf p1 r2 p3 p4). split; [|split; [reflexivity|split; [exact X2|split; reflexivity]]].
    unfold read_property. cbn [object_dict bind]. rewrite (text_option_found _ _ (lit "N") p1 Q H1). cbn [bind]. rewrite E2. cbn [bind].
    rewrite (text_option_found _ _ (lit "F") p3 Q H3). cbn [bind]. rewrite (same_found (lit "H") is_bool _ _ _ p4 Q H4 bool_found). reflexivity.
  Qed.
  Lemma owner_table o iso2020 n : by_name n (if (iso2020 : bool) then AttributeOwner_table_2020 else AttributeOwner_table_old) = Some o ->
    by_name n (AttributeOwner_table_2020 ++ AttributeOwner_table_old) = Some o.
  Proof using Type.
    assert (X : forall l n, Forall (fun e => by_name (fst e) (AttributeOwner_table_2020 ++ AttributeOwner_table_old) = Some (snd e)) l ->
      forall x, by_name n l = Some x -> by_name n (AttributeOwner_table_2020 ++ AttributeOwner_table_old) = Some (x : AttributeOwner)).
    { intros l m F. induction F as [|[k e] l H F IH]; intros x; [discriminate|]. cbn [by_name fst snd] in *.
      destruct (bytes_eqb m k) eqn:E; [|exact (IH x)]. apply bytes_eqb_spec in E. subst m. intro S. apply some_inj in S. subst x. exact H. }
    apply X. destruct iso2020; repeat constructor.
  Qed.
  Lemma owner_other o n : plain_owner o -> by_name n (AttributeOwner_table_2020 ++ AttributeOwner_table_old) = Some o ->
    existsb (bytes_eqb n) [lit "Layout"; lit "List"; lit "PrintField"; lit "Table"; lit "Artifact"; lit "FENote"; lit "UserProperties"; lit "NSO"] = false.
  Proof using Type.
    intros W B. apply not_true_is_false. intro E. apply existsb_exists in E. destruct E as (m & I & E). apply bytes_eqb_spec in E. subst m.
    cbn [In] in I. repeat (destruct I as [<-|I]; [vm_compute in B; apply some_inj in B; subst o; exact W|]). exact I.
  Qed.
  (** The entries besides the keys. *)
  Lemma without_entries keys l : forall d, apart keys l -> Forall2 (fun (e : bytes * (val -> Prop)) (x : bytes * val) => fst x = fst e /\ snd e (snd x)) (map (fun e => (fst e, means (snd e))) l) d ->
    without keys d = d /\ entries_are l d.
  Proof using Type.
    unfold apart. induction l as [|[k o] l IH]; intros d A F; inversion F as [|? [k' v] ? d' [F1 F2] F']; subst.
    - split; [reflexivity|constructor].
    - cbn [fst snd] in *. subst k'. cbn [forallb fst] in A. apply andb_true_iff in A. destruct A as [A1 A2]. destruct (IH d' A2 F') as [X Y].
      split; [|constructor; [split; [reflexivity|exact F2]|exact Y]]. unfold without in *. cbn [List.filter fst]. rewrite A1. f_equal. exact X.
  Qed.
  Definition own_name (o : AttributeOwner) : bytes :=
    match o with AttributeOwner_Layout => lit "Layout" | AttributeOwner_List => lit "List" | AttributeOwner_PrintField => lit "PrintField" | AttributeOwner_Table => lit "Table"
        | AttributeOwner_Artifact => lit "Artifact" | AttributeOwner_FENote => lit "FENote" | AttributeOwner_User => lit "UserProperties" | _ => lit "NSO" end.
  Lemma attribute_found calls a v : attribute_written ops calls a -> Attributes_reads calls v -> exists r, read_attribute resolved v = Some r /\ attribute_is a r.
  Proof using R.
    intros W Q. destruct (dict_is _ _ Q) as [d ->].
    assert (U : forall n o, by_name n (AttributeOwner_table_2020 ++ AttributeOwner_table_old) = Some o -> plain_owner o \/
      n = own_name o).
    { intros n o. assert (G : forall t, Forall (fun e => plain_owner (snd e) \/ fst e = own_name (snd e)) t -> by_name n t = Some o -> plain_owner o \/ n = own_name o).
      { intros t F. induction F as [|[k x] t H F IH]; [discriminate|]. cbn [by_name fst snd] in *. destruct (bytes_eqb n k) eqn:E; [|exact IH].
        apply bytes_eqb_spec in E. subst k. intro S. apply some_inj in S. subst o. exact H. }
      apply G. repeat (apply Forall_cons; [first [left; exact Logic.I|right; reflexivity]|]). apply Forall_nil. }
    assert (O : forall o iso2020 xs, is_dict ((lit "O", is_AttributeOwner o iso2020) :: xs) (VDict d) -> exists n, lookup (lit "O") d = Some (VName n) /\
      by_name n (AttributeOwner_table_2020 ++ AttributeOwner_table_old) = Some o /\ (plain_owner o \/ n = own_name o)).
    { intros o b xs D. destruct (dict_first _ _ _ _ D) as (v & L & m & -> & V). exists m. split; [exact L|]. apply owner_table in V. split; [exact V|exact (U m o V)]. }
    unfold read_attribute. cbn [object_dict bind]. unfold required at 1.
    destruct a as [l|l|f|t|a|n|l|uri l|o l]; cbn [attribute_written] in W; destruct W as (c & -> & W);
      unfold Attributes_reads, writer_reads in Q; cbn [flat_map raw_doc Attributes_doc] in Q; change (Attributes_head) with (@nil entry_spec) in Q; cbn [app] in Q; try rewrite app_nil_r in Q.
    - destruct (O _ _ _ Q) as (n & L & _ & [[]|N]). rewrite L. cbn [bind read_name]. subst n. destruct (layout_found _ _ _ W Q) as (r & E & X).
      exists (OfLayout r). split; [|exact X]. change (option_map (OfLayout : _ -> read_attr) (read_layout d) = Some (OfLayout r)). rewrite E. reflexivity.
    - destruct (O _ _ _ Q) as (n & L & _ & [[]|N]). rewrite L. cbn [bind read_name]. subst n. exists (OfList l). split; [|reflexivity].
      change (option_map (OfList : _ -> read_attr) (read_list_of d) = Some (OfList l)). rewrite (list_of_found _ _ _ W Q). reflexivity.
    - destruct (O _ _ _ Q) as (n & L & _ & [[]|N]). rewrite L. cbn [bind read_name]. subst n. exists (OfField f). split; [|reflexivity].
      change (option_map (OfField : _ -> read_attr) (read_field_of d) = Some (OfField f)). rewrite (field_of_found _ _ _ W Q). reflexivity.
    - destruct (O _ _ _ Q) as (n & L & _ & [[]|N]). rewrite L. cbn [bind read_name]. subst n. exists (OfTable t). split; [|reflexivity].
      change (option_map (OfTable : _ -> read_attr) (read_table_of d) = Some (OfTable t)). rewrite (table_of_found _ _ _ W Q). reflexivity.
    - destruct (O _ _ _ Q) as (n & L & _ & [[]|N]). rewrite L. cbn [bind read_name]. subst n. destruct (artifact_of_found _ _ _ W Q) as (r & E & X).
      exists (OfArtifact r). split; [|exact X]. change (option_map (OfArtifact : _ -> read_attr) (read_artifact_of d) = Some (OfArtifact r)). rewrite E. reflexivity.
    - destruct (O _ _ _ Q) as (m & L & _ & [[]|N]). rewrite L. cbn [bind read_name]. subst m. unfold note_written in W.
      entries W FENoteAttributes_head FENoteAttributes_doc is_NoteType. exists (OfNote n). split; [|reflexivity].
      change (option_map (OfNote : _ -> read_attr) (optional (lit "NoteType") d (read_named NoteType_table)) = Some (OfNote n)).
      rewrite (same_found (lit "NoteType") is_NoteType _ _ _ n Q W (enum_found _)). reflexivity.
    - destruct (O _ _ _ Q) as (n & L & _ & [[]|N]). rewrite L. cbn [bind read_name]. subst n.
      assert (E : entries_for (lit "P") [(lit "O", is_AttributeOwner AttributeOwner_User false); (lit "P", is_array_of UserProperty_reads c)] = [(lit "P", is_array_of UserProperty_reads c)]) by reflexivity.
      destruct (dict_lookup _ _ _ _ Q E) as (v & L2 & V). destruct (all_related property_written UserProperty_reads (read_property resolved) property_is property_found c l v W V) as (r & F & X).
      exists (OfUser r). split; [|exact X]. unfold required. rewrite L2. change (option_map (OfUser : _ -> read_attr) (read_list (read_property resolved) v) = Some (OfUser r)). rewrite F. reflexivity.
    - destruct W as [W A]. destruct (O _ _ _ Q) as (n & L & _ & [[]|N]). rewrite L. cbn [bind read_name]. subst n.
      destruct Q as (d' & E & F). injection E as <-. inversion F as [|? [k1 v1] ? d1 [K1 V1] F1]; subst. cbn [fst snd] in K1, V1. subst k1.
      inversion F1 as [|? [k2 v2] ? d2 [K2 V2] F2]; subst. cbn [fst snd] in K2, V2. subst k2. destruct (without_entries _ _ _ A F2) as [X Y].
      exists (OfNamespace uri d2). split; [|split; [reflexivity|exact Y]]. unfold is_ref in V2. subst v2.
      change (option_map (fun uri => (OfNamespace uri (without [lit "O"; lit "NS"] d2) : read_attr)) (read_namespace resolved (VRef c 0)) = Some (OfNamespace uri d2)).
      rewrite (namespace_found resolved ops R _ _ W), X. reflexivity.
    - destruct W as [W A]. destruct (O _ _ _ Q) as (n & L & B & _). rewrite L. cbn [bind read_name]. pose proof (owner_other _ _ W B) as K. cbn [existsb] in K.
      repeat (apply orb_false_iff in K; let K1 := fresh in destruct K as [K1 K]; rewrite K1; clear K1). rewrite B. cbn [option_map].
      assert (T : flat_map (raw_doc Attributes_doc) (map (fun e : bytes * obj => Raw (fst e) (snd e)) l) = map (fun e => (fst e, means (snd e))) l).
      { clear. induction l as [|e l IH]; [reflexivity|]. cbn [map flat_map raw_doc app]. rewrite IH. reflexivity. }
      rewrite T in Q. destruct Q as (d' & E & F). injection E as <-. inversion F as [|? [k1 v1] ? d1 [K1 V1] F1]; subst. cbn [fst snd] in K1, V1. subst k1.
      destruct (without_entries _ _ _ A F1) as [X Y]. exists (OfOwner o d1). split; [|split; [reflexivity|exact Y]].
      change (without [lit "O"] ((lit "O", v1) :: d1)) with (without [lit "O"] d1). rewrite X. reflexivity.
  Qed.

  Lemma class_found classes d n x v : is_dict (writer_doc ClassMap_head ClassMap_doc classes) (VDict d) -> class_written ops classes n x -> is_name n v ->
    exists y, read_class resolved d v = Some y /\ (fst x = fst y /\ Forall2 attribute_is (snd x) (snd y)).
  Proof using R.
    intros Q (-> & c & H & W) ->. destruct x as [n l]. cbn [fst snd] in *. unfold read_class. cbn [read_name bind].
    apply (called_entries _ _ (fun c => match c with inl a => Attributes_reads a | inr l => is_array_of Attributes_reads l end) ClassMap_head ClassMap_doc) in H;
      [|reflexivity|intros [m a|m a]; unfold entries_for; cbn [ClassMap_doc List.filter fst map]; (destruct (bytes_eqb n m) eqn:E;
        [apply bytes_eqb_spec in E; subst m|]); reflexivity].
    destruct (dict_lookup _ _ _ _ Q H) as (v & L & V). unfold required. rewrite L. destruct c as [a|as_].
    - inversion W as [|? b ? bs W1 W2]; subst. inversion W2; subst. destruct (attribute_found a b v W1 V) as (r & E & X). destruct (dict_is _ _ V) as [dv ->].
      exists (n, [r]). split; [cbn [bind]; rewrite E; reflexivity|]. split; [reflexivity|]. constructor; [exact X|constructor].
    - destruct (all_related (attribute_written ops) Attributes_reads (read_attribute resolved) attribute_is attribute_found _ _ _ W V) as (r & E & X).
      destruct V as (vs & -> & _). cbn [read_list] in E. exists (n, r). split; [cbn [bind]; rewrite E; reflexivity|]. split; [reflexivity|exact X].
  Qed.
  Lemma element_found classes cd calls e d : is_dict (writer_doc ClassMap_head ClassMap_doc classes) (VDict cd) -> element_given decode ops classes calls e ->
    is_dict (writer_doc StructElement_head StructElement_doc calls) (VDict d) -> exists r, read_element decode resolved cd d = Some r /\ details_are e r.
  Proof using R.
    intros C (H0 & H1 & H2 & H3 & H4 & H5 & H6 & H7 & H8 & H9 & H10) Q. destruct e as [p0 p1 p2 p3 p4 p5 p6 p7 p8 p9 p10].
    cbn [el_parent el_id el_refs el_revision el_lang el_expanded el_alphabet el_phoneme el_files el_attributes el_classes] in *.
    entries H0 StructElement_head StructElement_doc is_ref. entries H1 StructElement_head StructElement_doc is_str. entries H2 StructElement_head StructElement_doc is_refs. entries H3 StructElement_head StructElement_doc is_int.
    entries H4 StructElement_head StructElement_doc is_text. entries H5 StructElement_head StructElement_doc is_textlike. entries H7 StructElement_head StructElement_doc is_text.
    assert (Y9 : exists r, optional (lit "A") d (read_list (read_attribute resolved)) = Some r /\ optionally (Forall2 attribute_is) p9 r).
    { apply (part_related (lit "A") (is_array_of Attributes_reads) _ (Forall2 (attribute_written ops)) _ _ _ d p9 Q) with (2 := H9);
        [intros c H; entries H StructElement_head StructElement_doc (is_array_of Attributes_reads); exact H|].
      exact (all_related (attribute_written ops) Attributes_reads (read_attribute resolved) attribute_is attribute_found). }
    assert (Y10 : exists r, optional (lit "C") d (read_list (read_class resolved cd)) = Some r /\
      optionally (Forall2 (fun x y => fst x = fst y /\ Forall2 attribute_is (snd x) (snd y))) p10 r).
    { apply (part_related (lit "C") is_names _ (Forall2 (class_written ops classes)) _ _ _ d p10 Q) with (2 := H10);
        [intros c H; entries H StructElement_head StructElement_doc is_names; exact H|].
      apply (all_related (class_written ops classes) is_name (read_class resolved cd) _). intros n x v. exact (class_found classes cd n x v C). }
    destruct Y9 as (r9 & E9 & X9), Y10 as (r10 & E10 & X10). exists (mkDetails p0 p1 p2 p3 p4 p5 p6 p7 p8 r9 r10). split; [|do 9 (split; [reflexivity|]); split; [exact X9|exact X10]].
    unfold read_element. rewrite (same_found (lit "P") is_ref _ _ _ p0 Q H0 id_found). cbn [bind]. rewrite (same_found (lit "ID") is_str _ _ _ p1 Q H1 str_found). cbn [bind]. rewrite (same_found (lit "Ref") is_refs _ _ _ p2 Q H2 ids_found). cbn [bind].
    rewrite (same_found (lit "R") is_int _ _ _ p3 Q H3 whole_found). cbn [bind]. rewrite (same_found (lit "Lang") is_text _ _ _ p4 Q H4 text_found). cbn [bind].
    rewrite (text_option_found _ _ (lit "E") p5 Q H5). cbn [bind].
    rewrite (part_same (lit "PhoneticAlphabet") is_PhoneticAlphabet _ (fun x y => x = y /\ alphabet_apart x) _ _ d p6 Q) with (2 := H6);
      [|intros c H; entries H StructElement_head StructElement_doc is_PhoneticAlphabet; exact H|intros x y v [-> A]; exact (alphabet_found y v A)]. cbn [bind].
    rewrite (same_found (lit "Phoneme") is_text _ _ _ p7 Q H7 text_found). cbn [bind].
    rewrite (part_same (lit "AF") (is_array_of FileSpec_reads) _ (Forall2 (file_written decode ops)) _ _ d p8 Q) with (2 := H8);
      [|intros c H; entries H StructElement_head StructElement_doc (is_array_of FileSpec_reads); exact H|intros c a v; apply all_found; exact (file_found decode resolved ops R)].
    cbn [bind]. rewrite E9. cbn [bind]. rewrite E10. reflexivity.
  Qed.

  (** ** The walk over the elements *)
  Variables (classes : ClassMap_calls) (cd : list (bytes * val)).
  Hypothesis C : is_dict (writer_doc ClassMap_head ClassMap_doc classes) (VDict cd).
  (** The element with a number, as it is read. *)
  Definition element_at (id : Z) : option (details read_attr) := bind (object_dict resolved (VRef id 0)) (read_element decode resolved cd).
  Lemma element_at_found id e : element_written decode ops classes id e -> exists r, element_at id = Some r /\ details_are e r.
  Proof using R C.
    intros (calls & I & G). destruct (found resolved ops R _ _ I) as (i & E & v & -> & D). destruct (dict_is _ _ D) as [d ->].
    unfold element_at. cbn [object_dict]. rewrite E. cbn [bind]. exact (element_found classes cd calls e d C G D).
  Qed.
  Lemma elements_at_found ids es : Forall2 (element_written decode ops classes) ids es -> exists rs, SpecNav.all_of (map element_at ids) = Some rs /\ Forall2 details_are es rs.
  Proof using R C.
    induction 1 as [|id e ids es H F IH]; [exists []; split; [reflexivity|constructor]|]. destruct (element_at_found _ _ H) as (r & E & X), IH as (rs & Y & Z).
    exists (r :: rs). split; [cbn [map SpecNav.all_of]; rewrite E, Y; reflexivity|constructor; assumption].
  Qed.
  Lemma all_of_app {A} (l m : list (option A)) : SpecNav.all_of (l ++ m) = bind (SpecNav.all_of l) (fun a => option_map (app a) (SpecNav.all_of m)).
  Proof using Type.
    induction l as [|[x|] l IH]; cbn [app SpecNav.all_of bind]; [destruct (SpecNav.all_of m); reflexivity| |reflexivity].
    rewrite IH. destruct (SpecNav.all_of l); [|reflexivity]. cbn [bind option_map]. destruct (SpecNav.all_of m); reflexivity.
  Qed.
  Definition tag_elements (t : tag) : option (list (details read_attr)) := SpecNav.all_of (map element_at (tag_ids t)).
  Lemma concat_elements l rs : SpecNav.all_of (map element_at (flat_map tag_ids l)) = Some rs -> exists ls, SpecNav.all_of (map tag_elements l) = Some ls /\ concat ls = rs.
  Proof using Type.
    revert rs. induction l as [|t l IH]; intros rs E; [apply some_inj in E; subst rs; exists []; split; reflexivity|].
    cbn [flat_map] in E. rewrite map_app, all_of_app in E. cbn [map SpecNav.all_of]. fold (tag_elements t) in E. destruct (tag_elements t) as [a|]; [|discriminate]. cbn [bind] in E.
    destruct (SpecNav.all_of (map element_at (flat_map tag_ids l))) as [b|] eqn:Eb; [|discriminate]. destruct (IH b eq_refl) as (ls & X & Y). rewrite X.
    exists (a :: ls). split; [reflexivity|]. cbn [concat]. rewrite Y. apply some_inj in E. exact E.
  Qed.
  (** The entry for the children: none, one, or an array. *)
  Lemma kids_walk xs d l (f : val -> option (list (details read_attr))) rs : is_dict xs (VDict d) -> kids_entry xs (map tag_item l) ->
    (forall t, In t l -> forall v a, tag_item t v -> tag_elements t = Some a -> f v = Some a) ->
    SpecNav.all_of (map element_at (flat_map tag_ids l)) = Some rs ->
    match lookup (lit "K") d with None => Some [] | Some (VArr l) => option_map (@concat _) (SpecNav.all_of (map f l)) | Some v => f v end = Some rs.
  Proof using Type.
    intros D W H E. destruct (concat_elements l rs E) as (ls & X & <-). pose proof (kids_found xs d l f tag_elements ls D W H X) as K.
    destruct (lookup (lit "K") d) as [v|] eqn:L; [|apply some_inj in K; subst ls; reflexivity].
    destruct v; try (destruct (f _) as [a|]; [|discriminate K]; apply some_inj in K; subst ls; cbn [concat]; rewrite app_nil_r; reflexivity).
    rewrite K. reflexivity.
  Qed.
  Lemma elements_walk : forall n t v rs, (tag_depth t <= n)%nat -> tag_written ops t -> tag_item t v -> tag_elements t = Some rs ->
    read_elements decode resolved cd n v = Some rs.
  Proof using R.
    induction n as [|n IH]; intros t v rs L W Q A; [destruct t; inversion L|].
    destruct t as [id kind title alt actual pg kids|mcid|own stream mcid calls|id calls]; cbn [tag_item tag_depth] in *.
    - apply le_S_n in L. cbn [tag_written] in W. destruct W as [(calls & H1 & H2 & H3 & H4 & H5 & H6 & H7) W]. unfold is_ref in Q. subst v. apply children_entry in H7.
      destruct (found resolved ops R _ _ H1) as (i & E & v & -> & D). destruct (dict_is _ _ D) as [d ->].
      cbn [read_elements object_dict]. rewrite E. cbn [bind]. unfold required at 1.
      destruct (dict_first _ _ _ _ D) as (t & L1 & Q). rewrite L1. unfold is_name in Q. subst t. cbn [bind read_name].
      change (bytes_eqb (lit "StructElem") (lit "StructElem")) with true. cbv iota. unfold tag_elements in A. cbn [tag_ids map SpecNav.all_of] in A.
      unfold element_at at 1 in A. cbn [object_dict] in A. rewrite E in A. cbn [bind] in A. destruct (read_element decode resolved cd d) as [e|]; [|discriminate]. cbn [bind].
      destruct (SpecNav.all_of (map element_at (flat_map tag_ids kids))) as [r|] eqn:Er; [|discriminate]. apply some_inj in A. subst rs.
      rewrite (kids_walk _ _ kids (read_elements decode resolved cd n) r D H7); [reflexivity| |exact Er].
      intros t It v b Q G. apply (IH t v b); [|exact (all_in ops _ W t It)|exact Q|exact G]. etransitivity; [exact (depth_in t kids It)|exact L].
    - unfold is_int in Q. subst v. exact A.
    - destruct (dict_is _ _ Q) as [d ->]. cbn [read_elements object_dict bind]. unfold required. destruct (dict_first _ _ _ _ Q) as (t & L1 & P). rewrite L1. unfold is_name in P. subst t. exact A.
    - destruct (dict_is _ _ Q) as [d ->]. cbn [read_elements object_dict bind]. unfold required. destruct (dict_first _ _ _ _ Q) as (t & L1 & P). rewrite L1. unfold is_name in P. subst t. exact A.
  Qed.
End Walk.

(** A reader that starts from the trailer finds for every element of the structure, in their order, its attributes, the classes with theirs, and the other parts. *)
Theorem C87_elements : forall decode ops cat file calls role_map l classes es,
  finished_document decode ops cat file -> In (DocCatalog cat calls) ops ->
  structure_written ops calls role_map l -> classes_written calls classes ->
  Forall2 (element_written decode ops classes) (flat_map tag_ids l) es ->
  exists rs depth, Forall2 details_are es rs /\ forall n, (depth <= n)%nat -> read_document_elements decode n file = Some rs.
Proof.
  intros decode ops cat file calls role_map l classes es D I (rcalls & ids & W1 & _ & W3 & W4 & W5) (rcalls' & m & V1 & V2 & ->) F.
  unfold called in V1. pose proof W1 as V. unfold called in V. rewrite V in V1. injection V1 as <-. clear V. apply (called_entries _ _ StructTreeRoot_reads Catalog_head Catalog_doc) in W1; [|reflexivity|each_call].
  entries V2 StructTreeRoot_head StructTreeRoot_doc ClassMap_reads. pose proof (root_children_entry _ _ _ W3 W4) as K.
  destruct (document_facts _ _ _ _ D) as [X _]. destruct (catalog_found _ _ _ _ _ D I) as (c & C1 & C2).
  destruct (dict_lookup _ _ _ _ C2 W1) as (v & L & Q). destruct (dict_is _ _ Q) as [root ->].
  assert (Y : exists cd, optional (lit "ClassMap") root (object_dict (resolve decode file)) = Some cd /\
    is_dict (writer_doc ClassMap_head ClassMap_doc (match m with Some m => m | None => [] end)) (VDict (match cd with Some d => d | None => [] end))).
  { unfold optional. destruct m as [m|]; cbn [option_map entry_or_none] in V2.
    - destruct (dict_lookup _ _ _ _ Q V2) as (v & L2 & P). destruct (dict_is _ _ P) as [d ->]. rewrite L2. exists (Some d). split; [reflexivity|exact P].
    - rewrite (dict_lookup_none _ _ _ Q V2). exists None. split; [reflexivity|]. exists []. split; [reflexivity|constructor]. }
  destruct Y as (cd & Y1 & Y2). destruct (elements_at_found decode (resolve decode file) ops X _ _ Y2 _ _ F) as (rs & E & G).
  exists rs, (fold_right Nat.max 0 (map tag_depth l))%nat. split; [exact G|]. intros n Hn. unfold read_document_elements, document_structure. rewrite C1. cbn [bind].
  unfold required. rewrite L. cbn [bind object_dict]. rewrite Y1. cbn [bind]. cbv zeta.
  apply (kids_walk decode (resolve decode file) (match cd with Some d => d | None => [] end) _ root l _ rs Q K); [|exact E]. intros t It w a Qt At. rewrite Forall_forall in W5.
  apply (elements_walk decode (resolve decode file) ops X _ n t w a); [pose proof (depth_in t l It); lia|exact (W5 t It)|exact Qt|exact At].
Qed.

(** ** The tree itself *)
Section Tree.
  Variables (decode : option val -> bytes -> option bytes) (resolved : Z -> option indirect) (ops : list doc_op).
  Hypothesis R : Forall (fun op => doc_op_reads op resolved) ops.
  Lemma targets_found cs l d : Forall2 (target_written ops) cs l -> is_dict (writer_doc NamespaceRoleMap_head NamespaceRoleMap_doc (map Typed cs)) (VDict d) ->
    SpecNav.all_of (map (fun e => option_map (pair (fst e)) (read_target resolved (snd e))) d) = Some l.
  Proof using R.
    intros F (d' & E & V). injection E as <-. unfold writer_doc in V. cbn [NamespaceRoleMap_head app] in V. revert d V.
    induction F as [|c x cs l W F IH]; intros d V; [inversion V; subst; reflexivity|]. cbn [map flat_map raw_doc] in V.
    assert (G : exists P v d2, NamespaceRoleMap_doc c = [P] /\ d = (fst P, v) :: d2 /\ snd P v /\
      Forall2 (fun (e : bytes * (val -> Prop)) (x : bytes * val) => fst x = fst e /\ snd e (snd x)) (flat_map (raw_doc NamespaceRoleMap_doc) (map Typed cs)) d2).
    { destruct c; cbn [NamespaceRoleMap_doc app] in V; inversion V as [|? [k v] ? d2 [V1 V2] V3]; subst; cbn [fst snd] in *; subst k; eexists; exists v, d2; repeat split; assumption. }
    destruct G as (P & v & d2 & G1 & -> & G2 & G3). specialize (IH d2 G3). cbn [map SpecNav.all_of fst snd]. rewrite IH.
    assert (T : option_map (pair (fst P)) (read_target resolved v) = Some x); [|rewrite T; reflexivity].
    destruct c as [n r|n role ns|n r ns]; cbn [NamespaceRoleMap_doc target_written] in G1, W; injection G1 as <-; cbn [fst snd] in *.
    - subst x. destruct G2 as (m & -> & B). unfold read_target, read_role. rewrite B. reflexivity.
    - destruct W as (uri & W1 & W2 & ->). destruct G2 as (vs & -> & G2). inversion G2 as [|? a ? vs1 A1 G4]; subst. inversion G4 as [|? b ? vs2 A2 G5]; subst. inversion G5; subst.
      unfold is_name in A1. unfold is_ref in A2. subst a b. unfold read_target. rewrite (namespace_found resolved ops R _ _ W1). cbn [bind].
      destruct (list_eq_dec Z.eq_dec uri pdf2_namespace) as [N|_]; [contradiction|reflexivity].
    - destruct W as (W1 & ->). destruct G2 as (vs & -> & G2). inversion G2 as [|? a ? vs1 A1 G4]; subst. inversion G4 as [|? b ? vs2 A2 G5]; subst. inversion G5; subst.
      unfold is_ref in A2. subst b. destruct A1 as (m & -> & B). unfold read_target. rewrite (namespace_found resolved ops R _ _ W1). cbn [bind].
      destruct (list_eq_dec Z.eq_dec pdf2_namespace pdf2_namespace) as [_|N]; [|congruence]. rewrite B. reflexivity.
  Qed.
  Lemma namespace_of_found id n v : namespace_of_written decode ops id n -> is_ref id v -> read_namespace_of decode resolved v = Some n.
  Proof using R.
    intros (calls & I & H1 & H2 & H3) ->. destruct n as [p1 p2 p3]. cbn [ns_uri ns_schema ns_types] in *. entries H1 Namespace_head Namespace_doc is_text.
    destruct (found resolved ops R _ _ I) as (i & E & v & -> & Q). destruct (dict_is _ _ Q) as [d ->].
    unfold read_namespace_of. cbn [object_dict]. rewrite E. cbn [bind]. rewrite (same_found (lit "NS") is_text _ _ _ p1 Q H1 text_found). cbn [bind].
    rewrite (part_same (lit "Schema") FileSpec_reads _ (file_written decode ops) _ _ d p2 Q) with (2 := H2);
      [|intros c H; entries H Namespace_head Namespace_doc FileSpec_reads; exact H|exact (file_found decode resolved ops R)]. cbn [bind].
    rewrite (part_same (lit "RoleMapNS") NamespaceRoleMap_reads _ (fun c l => exists cs, c = map Typed cs /\ Forall2 (target_written ops) cs l) _ _ d p3 Q) with (2 := H3);
      [reflexivity|intros c H; entries H Namespace_head Namespace_doc NamespaceRoleMap_reads; exact H|].
    intros c l v (cs & -> & F) V. destruct (dict_is _ _ V) as [m ->]. cbn [object_dict bind]. exact (targets_found cs l m F V).
  Qed.
End Tree.

(** A reader that starts from the trailer finds the identifiers of the elements, the namespaces with what their types stand for, and the other parts of the tree. *)
Theorem C87_tree : forall decode ops cat file calls ids t,
  finished_document decode ops cat file -> In (DocCatalog cat calls) ops -> tree_written decode ops calls ids t ->
  exists depth, forall n, (depth <= n)%nat -> read_document_tree decode n file = Some t.
Proof.
  intros decode ops cat file calls ids t D I (rcalls & W1 & H1 & H1' & H2 & H3 & H4 & H5). destruct t as [p1 p2 p3 p4 p5].
  cbn [tp_ids tp_next tp_namespaces tp_lexicon tp_files] in *. entries W1 Catalog_head Catalog_doc StructTreeRoot_reads.
  entries H2 StructTreeRoot_head StructTreeRoot_doc is_int. entries H4 StructTreeRoot_head StructTreeRoot_doc is_refs.
  destruct (document_facts _ _ _ _ D) as [X _]. destruct (catalog_found _ _ _ _ _ D I) as (c & C1 & C2).
  destruct (dict_lookup _ _ _ _ C2 W1) as (v & L & Q). destruct (dict_is _ _ Q) as [root ->].
  exists (match ids with Some t => tn_depth t | None => 0%nat end). intros n Hn.
  unfold read_document_tree, document_structure. rewrite C1. cbn [bind]. unfold required. rewrite L. cbn [bind object_dict]. unfold read_tree_parts.
  assert (Y : optional (lit "IDTree") root (fun t => bind (tree_entries (resolve decode file) (lit "Names") read_name_pairs n t) (fun es =>
    SpecNav.all_of (map (fun e => option_map (pair (fst e)) (read_id (snd e))) es))) = Some p1).
  { subst p1. unfold optional. destruct ids as [t|]; cbn [part_given option_map] in *.
    - destruct H1 as (tcalls & H & W). entries H StructTreeRoot_head StructTreeRoot_doc is_name_tree. destruct (dict_lookup _ _ _ _ Q H) as (v & L2 & P). rewrite L2.
      destruct (dict_is _ _ P) as [d ->]. rewrite (walk_name_tree (resolve decode file) ops X t tcalls (VDict d) d n W eq_refl P Hn). cbn [bind]. rewrite map_map.
      rewrite (all_of_map _ (fun e => (fst e, fst (snd e)))); [reflexivity|]. clear. induction (tn_entries t) as [|e l IH]; constructor; [reflexivity|exact IH].
    - entries H1 StructTreeRoot_head StructTreeRoot_doc is_name_tree. rewrite (dict_lookup_none _ _ _ Q H1). reflexivity. }
  rewrite Y. cbn [bind]. rewrite (same_found (lit "ParentTreeNextKey") is_int _ _ _ p2 Q H2 whole_found). cbn [bind].
  rewrite (part_same (lit "Namespaces") is_refs _ (Forall2 (namespace_of_written decode ops)) _ _ root p3 Q) with (2 := H3);
    [|intros d H; entries H StructTreeRoot_head StructTreeRoot_doc is_refs; exact H
     |intros d a v; apply (all_found (namespace_of_written decode ops) is_ref); exact (namespace_of_found decode (resolve decode file) ops X)]. cbn [bind].
  rewrite (same_found (lit "PronunciationLexicon") is_refs _ _ _ p4 Q H4 ids_found). cbn [bind].
  rewrite (part_same (lit "AF") (is_array_of FileSpec_reads) _ (Forall2 (file_written decode ops)) _ _ root p5 Q) with (2 := H5);
    [reflexivity|intros d H; entries H StructTreeRoot_head StructTreeRoot_doc (is_array_of FileSpec_reads); exact H|].
  intros d a v. apply all_found. exact (file_found decode (resolve decode file) ops X).
Qed.

(** ** A document that meets the hypotheses *)

Definition cell_layout : LayoutAttributes_calls :=
  [Typed (LayoutAttributes_placement Placement_Block); Typed (LayoutAttributes_border_color (mkSides (one, one, one) (one, one, one) (f32_zero, one, one) (one, one, one)));
   Typed (LayoutAttributes_border_style (mkSides BsSolid BsSolid BsSolid BsSolid)); Typed (LayoutAttributes_padding (mkSides one one f32_zero one));
   Typed (LayoutAttributes_column_widths (TrackSizes_individual [one; f32_zero])); Typed (LayoutAttributes_line_height (LineHeight_Custom one));
   Typed (LayoutAttributes_glyph_orientation_vertical (GlyphOrientationVertical_Angle 90))].
Definition cell_layout_asked : layout f32 f3 rect TrackSizes_call LineHeight :=
  mkLayout (Some Placement_Block) None None (Some (mkSides (one, one, one) (one, one, one) (f32_zero, one, one) (one, one, one)))
    (Some (mkSides BsSolid BsSolid BsSolid BsSolid)) None (Some (mkSides one one f32_zero one)) None None None None None None None None None None None None None None None
    (Some (TrackSizes_individual [one; f32_zero])) None (Some (LineHeight_Custom one)) None None None None None (Some (GlyphOrientationVertical_Angle 90)) None None.
Definition cell_table : TableAttributes_calls :=
  [Typed (TableAttributes_col_span 2); Typed (TableAttributes_headers [lit "h1"; lit "h2"]); Typed (TableAttributes_scope TableHeaderScope_Row)].
Definition cell_user : list UserProperty_calls := [[Typed (UserProperty_name (TextPlain [78])); Typed (UserProperty_value (OPrim (PInt 5))); Typed (UserProperty_hidden true)]].
Definition cell_calls : StructElement_calls := [
  Typed (StructElement_kind StructRole_TD); Typed (StructElement_id (lit "cell")); Typed (StructElement_lang [101; 110]);
  Typed (StructElement_attributes [[Typed (Attributes_table cell_table)]; [Typed (Attributes_layout cell_layout)]; [Typed (Attributes_user cell_user)];
    [Typed (Attributes_namespace 50 [(lit "Speed", OPrim (PInt 3))])];
    [Typed (Attributes_owner AttributeOwner_Css1 false); Raw (lit "color") (OPrim (PName (lit "red")))]]);
  Typed (StructElement_attribute_class [lit "c1"; lit "c2"]); Typed (StructElement_child 21)].
Definition span_calls : StructElement_calls := [
  Typed (StructElement_kind StructRole_Span); Typed (StructElement_parent 20); Typed (StructElement_expanded (TextPlain [65])); Typed (StructElement_phonetic_alphabet (PhoneticAlphabet_Custom (lit "mine")));
  Typed (StructElement_phoneme [66]); Typed (StructElement_refs [20])].
Definition attr_classes : ClassMap_calls := [
  Typed (ClassMap_single (lit "c1") [Typed (Attributes_list [Typed (ListAttributes_list_numbering ListNumbering_Decimal); Typed (ListAttributes_continued_list true)])]);
  Typed (ClassMap_multiple (lit "c2") [[Typed (Attributes_field [Typed (FieldAttributes_checked FieldState_Checked true)])];
    [Typed (Attributes_artifact [Typed (ArtifactAttributes_subtype ArtifactSubtype_Header)])];
    [Typed (Attributes_note [Typed (FENoteAttributes_note_type NoteType_Footnote)])]])].
Definition attr_catalog : Catalog_calls := [Typed (Catalog_pages 2); Typed (Catalog_struct_tree_root [
  Typed (StructTreeRoot_child 20); Typed (StructTreeRoot_class_map attr_classes); Typed (StructTreeRoot_id_tree [NtKids [60]]);
  Typed (StructTreeRoot_parent_tree_next_key 3); Typed (StructTreeRoot_namespaces [50; 51])])].
Definition attr_sample : list doc_op := [
  DocTyped 2 (Ck_pages [Typed (Pages_kids [])]);
  DocTyped 20 (Ck_struct_element cell_calls);
  DocTyped 21 (Ck_struct_element span_calls);
  DocTyped 50 (Ck_namespace [Typed (Namespace_ns (ascii "urn:a")); Typed (Namespace_role_map_ns
    [Typed (NamespaceRoleMap_to_pdf_1_7 (lit "S") StructRole_P); Typed (NamespaceRoleMap_to_namespace (lit "M") (lit "math") 51)])]);
  DocTyped 51 (Ck_namespace [Typed Namespace_mathml_3_0_ns]);
  DocTyped 60 (Ck_name_tree [NtLimits (lit "cell") (lit "cell"); NtNames [(lit "cell", PRef 20)]]);
  DocCatalog 1 attr_catalog].
Definition attr_tree : list tag := [TagElement 20 (KindRole StructRole_TD) None None None None [TagElement 21 (KindRole StructRole_Span) None None None None []]].
Definition attr_asked : list (details asked_attr) := [
  mkDetails None (Some (lit "cell")) None None (Some [101; 110]) None None None None
    (Some [OfTable (mkTableOf None (Some 2) (Some [lit "h1"; lit "h2"]) (Some TableHeaderScope_Row) None None); OfLayout cell_layout_asked;
           OfUser [mkPropertyOf (Some [78]) (Some (OPrim (PInt 5))) None (Some true)]; OfNamespace (ascii "urn:a") [(lit "Speed", OPrim (PInt 3))];
           OfOwner AttributeOwner_Css1 [(lit "color", OPrim (PName (lit "red")))]])
    (Some [(lit "c1", [OfList (mkListOf (Some ListNumbering_Decimal) (Some true) None)]);
           (lit "c2", [OfField (mkFieldOf None None (Some FieldState_Checked) None); OfArtifact (mkArtifactOf None None (Some ArtifactSubtype_Header));
             OfNote (Some NoteType_Footnote)])]);
  mkDetails (Some 20) None (Some [20]) None None (Some [65]) (Some (PhoneticAlphabet_Custom (lit "mine"))) (Some [66]) None None None].
Definition attr_parts : tree_parts := mkTreeParts (Some [(lit "cell", 20)]) (Some 3)
  (Some [mkNamespaceOf (Some (ascii "urn:a")) None (Some [(lit "S", ToStandard StructRole_P); (lit "M", ToOther (ascii "https://www.w3.org/1998/Math/MathML") (lit "math"))]);
         mkNamespaceOf (Some (ascii "https://www.w3.org/1998/Math/MathML")) None None]) None None.
Ltac there := cbn [attr_sample In]; tauto.
Example C87_case : structure_written attr_sample attr_catalog None attr_tree /\ classes_written attr_catalog attr_classes /\
  Forall2 (element_written no_filter attr_sample attr_classes) (flat_map tag_ids attr_tree) attr_asked.
Proof.
  split; [|split].
  - eexists _, [20]. split; [reflexivity|]. split; [reflexivity|]. split; [right; left; eexists; split; reflexivity|].
    split; [reflexivity|]. apply Forall_cons; [|apply Forall_nil].
    split; [eexists; split; [there|]; repeat split; right; left; eexists; split; reflexivity|].
    split; [|exact Logic.I]. split; [eexists; split; [there|]; repeat split; left; split; reflexivity|exact Logic.I].
  - eexists; exists (Some attr_classes). split; [reflexivity|]. split; reflexivity.
  - apply Forall2_cons; [|apply Forall2_cons; [|apply Forall2_nil]].
    + eexists. split; [there|]. do 6 (split; [reflexivity|]). split; [reflexivity|]. split; [reflexivity|]. split; [reflexivity|]. split.
      * eexists. split; [reflexivity|].
        apply Forall2_cons; [eexists; split; [reflexivity|]; repeat split|].
        apply Forall2_cons; [eexists; split; [reflexivity|]; unfold layout_written; repeat (split; [reflexivity|]); reflexivity|].
        apply Forall2_cons; [eexists; split; [reflexivity|]; apply Forall2_cons; [repeat split|apply Forall2_nil]|].
        apply Forall2_cons; [eexists; split; [reflexivity|]; split; [eexists; split; [there|reflexivity]|reflexivity]|].
        apply Forall2_cons; [eexists; split; [reflexivity|]; split; [exact Logic.I|reflexivity]|apply Forall2_nil].
      * eexists. split; [reflexivity|]. apply Forall2_cons; [|apply Forall2_cons; [|apply Forall2_nil]].
        -- split; [reflexivity|]. eexists. split; [reflexivity|]. apply Forall2_cons; [|apply Forall2_nil]. eexists. split; [reflexivity|]. repeat split.
        -- split; [reflexivity|]. eexists. split; [reflexivity|]. apply Forall2_cons; [|apply Forall2_cons; [|apply Forall2_cons; [|apply Forall2_nil]]];
             (eexists; split; [reflexivity|]); [repeat split| |reflexivity].
           split; [reflexivity|]. split; [reflexivity|]. eexists. split; [reflexivity|]. split; [reflexivity|exact Logic.I].
    + eexists. split; [there|]. do 6 (split; [reflexivity|]). split; [|repeat split]. eexists. split; [reflexivity|]. split; reflexivity.
Qed.
Example C87_tree_case : tree_written no_filter attr_sample attr_catalog (Some (TnNode [(60, TnLeaf [(lit "cell", (20, tt))])])) attr_parts.
Proof.
  eexists. split; [reflexivity|]. split; [eexists; split; [reflexivity|]|]; [|repeat (split; [reflexivity|])].
  - split; [reflexivity|]. split; [|exact Logic.I]. eexists. split; [there|]. split; reflexivity.
  - split; [|split; reflexivity]. eexists. split; [reflexivity|]. apply Forall2_cons; [|apply Forall2_cons; [|apply Forall2_nil]]; (eexists; split; [there|]); split; try reflexivity.
    + split; [reflexivity|]. eexists. split; [reflexivity|].
      exists [NamespaceRoleMap_to_pdf_1_7 (lit "S") StructRole_P; NamespaceRoleMap_to_namespace (lit "M") (lit "math") 51].
      split; [reflexivity|]. apply Forall2_cons; [reflexivity|]. apply Forall2_cons; [|apply Forall2_nil].
      eexists. split; [eexists; split; [there|reflexivity]|]. split; [vm_compute; discriminate|reflexivity].
    + split; reflexivity.
Qed.

Definition attr_seen (l : option (list (details read_attr))) : option (list bytes * list bytes * list (bytes * val) * list (bytes * val) * list Z) :=
  match l with
  | Some [mkDetails None (Some _) None None (Some [101; 110]) None None None None
      (Some [OfTable (mkTableOf None (Some 2) (Some headers) (Some TableHeaderScope_Row) None None); OfLayout layout;
             OfUser [mkPropertyOf (Some [78]) (Some (VInt 5)) None (Some true)]; OfNamespace uri special; OfOwner AttributeOwner_Css1 css])
      (Some [(c1, [OfList (mkListOf (Some ListNumbering_Decimal) (Some true) None)]);
             (c2, [OfField (mkFieldOf None None (Some FieldState_Checked) None); OfArtifact (mkArtifactOf None None (Some ArtifactSubtype_Header)); OfNote (Some NoteType_Footnote)])]);
      mkDetails (Some 20) None (Some [20]) None None (Some [65]) (Some (PhoneticAlphabet_Custom _)) (Some [66]) None None None] =>
      match la_border_color layout, la_border_style layout, la_padding layout, la_column_widths layout, la_line_height layout, la_orientation layout with
      | Some (mkSides [VInt 1; VInt 1; VInt 1] _ [VInt 0; VInt 1; VInt 1] _), Some (mkSides BsSolid BsSolid BsSolid BsSolid), Some (mkSides (VInt 1) (VInt 1) (VInt 0) (VInt 1)),
        Some (EachSize [VInt 1; VInt 0]), Some (Height (VInt 1)), Some (GlyphOrientationVertical_Angle 90) => Some (headers, [c1; c2], special, css, uri)
      | _, _, _, _, _, _ => None
      end
  | _ => None
  end.
Definition attr_result := (Some ([lit "h1"; lit "h2"], [lit "c1"; lit "c2"], [(lit "Speed", VInt 3)], [(lit "color", VName (lit "red"))], ascii "urn:a"), Some attr_parts).
Example C87_file : exists file, finished_document no_filter attr_sample 1 file /\
  (attr_seen (read_document_elements no_filter 4 file), read_document_tree no_filter 4 file) = attr_result.
Proof.
  assert (X : match doc_run attr_sample (pdf_with_settings true) with
              | Some p => match finish p with
                          | Some file => Some (blen file <=? 10 ^ 10, (attr_seen (read_document_elements no_filter 4 file), read_document_tree no_filter 4 file))
                          | None => None end
              | None => None end = Some (true, attr_result)) by (vm_compute; reflexivity).
  destruct (doc_run attr_sample (pdf_with_settings true)) as [p|] eqn:R; [|discriminate].
  destruct (finish p) as [file|] eqn:F; [|discriminate]. exists file. apply some_inj in X.
  split; [apply (finished_table _ _ _ _ true p); [|exact R|exact F| |apply Z.leb_le; exact (f_equal fst X)|reflexivity]|exact (f_equal snd X)].
  - repeat (apply Forall_cons; [cbn [doc_op_ok op_typed]; repeat split|]); apply Forall_nil.
  - unfold ids_below; repeat constructor.
Qed.

Print Assumptions C87_elements.
Print Assumptions C87_tree.
