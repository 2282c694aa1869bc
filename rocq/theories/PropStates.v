(** C94: the parameters of graphics states, patterns and shadings, from the trailer on. *)

From Coq Require Import ZArith List Bool Lia.
From Verif Require SpecInfo ModelCmap ModelContent SpecContent SpecForm PropForm.
From Verif Require Import Bytes ModelFloat ModelBuf ModelObject ModelChunk ModelColor ModelSmall ModelPdf ModelTw ModelEnums ModelRoles ModelTwArgs
  ModelTwFiles ModelTwGraphics ModelTwAnnot ModelTwForms ModelTwAttr ModelTwXObj ModelTwFonts ModelTwDoc ModelFontDesc ModelDoc
  SpecLex SpecObj SpecText SpecMeans SpecRenum SpecChunk SpecFile SpecPdf SpecTyped SpecColor SpecSmall SpecTw SpecEnums SpecRoles SpecTwArgs
  SpecTwFiles SpecTwGraphics SpecTwAnnot SpecTwForms SpecTwAttr SpecTwXObj SpecTwFonts SpecTwDoc SpecFontDesc SpecDoc SpecPages SpecExtract SpecNav SpecViews SpecTagged SpecPaint SpecFunctions SpecActions SpecPresent SpecColors SpecImages SpecAppear SpecAttrs SpecMarks SpecFields SpecFaces SpecStates
  ProofBasic ProofTree ProofTyped ProofTw ProofTwGraphics ProofTwDoc PropDoc PropPdf2 PropPages PropExtract PropNav PropTagged PropInfo PropPaint PropFunctions PropColors PropActions PropPresent PropImages PropAppear PropAttrs PropFields PropFaces.
Import ListNotations.
Local Open Scope Z_scope.

Ltac scallTilingPattern H P := sentries H TilingPattern_head TilingPattern_doc P.
Ltac scallStreamShading H P := sentries H StreamShading_head StreamShading_doc P.
Definition dash_reads (x : list f32 * f32) : val -> Prop := is_array [is_reals (fst x); is_real (snd x)].
Definition halftone_reads (x : option Z) : val -> Prop := match x with Some id => is_ref id | None => is_name (lit "Default") end.
Definition pair_reads (x : bool * bool) : val -> Prop := is_array_of is_bool [fst x; snd x].
Definition mask_reads (x : bytes + SoftMask_calls) : val -> Prop := match x with inl n => is_name n | inr calls => SoftMask_reads calls end.
Definition shade_reads (x : FunctionShading_calls + Z) : val -> Prop := match x with inl calls => FunctionShading_reads calls | inr id => is_ref id end.
Lemma quad_numbers m l v : quad_list m l -> is_reals (in_order4 m) v -> exists b, read_numbers v = Some b /\ numbers_are l b.
Proof. intros ->. exact (numbers_found (in_order4 m) v). Qed.
Lemma dash_found x v : dash_reads x v -> exists b, read_dash v = Some b /\ dash_is x b.
Proof.
  intros (vs & -> & F). inversion F as [|? a ? ? A F1]; subst. inversion F1 as [|? b ? ? B F2]; subst. inversion F2; subst.
  destruct (numbers_found _ _ A) as (l & E & G). exists (l, b). split; [|split; [exact G|exact B]]. cbn [read_dash]. rewrite E. cbn [bind]. rewrite (number_found _ _ B). reflexivity.
Qed.
Lemma halftone_found x v : halftone_reads x v -> read_halftone v = Some x.
Proof. destruct x as [id|]; cbn [halftone_reads]; unfold is_ref, is_name; intros ->; reflexivity. Qed.
Lemma pair_found x v : pair_reads x v -> read_pair v = Some x.
Proof.
  destruct x as [a b]. intros (vs & -> & F). cbn [fst snd map] in F. inversion F as [|? x ? ? A F1]; subst. inversion F1 as [|? y ? ? B F2]; subst. inversion F2; subst.
  unfold is_bool in *. subst. reflexivity.
Qed.

Section Walk.
  Variables (decode : option val -> bytes -> option bytes) (resolved : Z -> option indirect) (ops : list doc_op).
  Hypothesis R : Forall (fun op => doc_op_reads op resolved) ops.

  Lemma mask_parts_found calls x v : mask_parts_written calls x -> SoftMask_reads calls v -> exists r, (read_mask_parts resolved) v = Some r /\ mask_parts_is x r.
  Proof using Type.
    intros (H0 & H1) Q. destruct (dict_is _ _ Q) as [d ->]. destruct x as [p0 p1].
    cbn [mt_kind mt_backdrop] in *.
    entries H0 SoftMask_head SoftMask_doc is_MaskType.
    entries H1 SoftMask_head SoftMask_doc is_reals.
    destruct (related_found (lit "BC") is_reals _ _ _ _ p1 Q H1 numbers_found) as (r1 & E1 & X1).
    exists (mkMaskParts p0 r1).
    split; [|unfold mask_parts_is; repeat (split; [first [reflexivity|assumption]|]); first [reflexivity|assumption]].
    unfold read_mask_parts. cbn [object_dict bind].
    rewrite (same_found (lit "S") is_MaskType _ _ _ p0 Q H0 (enum_found _)). cbn [bind].
    rewrite E1. cbn [bind].
    reflexivity.
  Qed.
  Lemma mask_of_found c x v : mask_of_written c x -> mask_reads c v -> exists b, read_mask_of resolved v = Some b /\ mask_of_is x b.
  Proof using Type.
    destruct c as [n|calls], x as [n'|p]; cbn [mask_of_written mask_reads]; try contradiction.
    - intros ->. unfold is_name. intros ->. exists (NamedMask n). split; reflexivity.
    - intros W D. destruct (mask_parts_found _ _ _ W D) as (r & E & Y). exists (GroupMask r). split; [|exact Y]. destruct (dict_is _ _ D) as [d ->].
      cbn [read_mask_of]. rewrite E. reflexivity.
  Qed.
  Lemma state_parts_found calls x v : state_parts_written calls x -> ExtGraphicsState_reads calls v -> exists r, (read_state_parts resolved) v = Some r /\ state_parts_is x r.
  Proof using Type.
    intros (H0 & H1 & H2 & H3 & H4 & H5 & H6 & H7 & H8 & H9 & H10 & H11 & H12 & H13 & H14 & H15 & H16 & H17 & H18 & H19 & H20 & H21) Q. destruct (dict_is _ _ Q) as [d ->]. destruct x as [p0 p1 p2 p3 p4 p5 p6 p7 p8 p9 p10 p11 p12 p13 p14 p15 p16 p17 p18 p19 p20 p21].
    cbn [st_width st_cap st_join st_miter st_dash st_intent st_overprint st_overprint_fill st_overprint_mode st_black st_undercolor st_transfer st_halftone st_flatness st_smoothness st_adjust st_blend st_mask st_stroke_alpha st_fill_alpha st_alpha_shape st_knockout] in *.
    entries H0 ExtGraphicsState_head ExtGraphicsState_doc is_real.
    entries H1 ExtGraphicsState_head ExtGraphicsState_doc is_LineCapStyle.
    entries H2 ExtGraphicsState_head ExtGraphicsState_doc is_LineJoinStyle.
    entries H3 ExtGraphicsState_head ExtGraphicsState_doc is_real.
    entries H4 ExtGraphicsState_head ExtGraphicsState_doc dash_reads.
    entries H5 ExtGraphicsState_head ExtGraphicsState_doc is_RenderingIntent.
    entries H6 ExtGraphicsState_head ExtGraphicsState_doc is_bool.
    entries H7 ExtGraphicsState_head ExtGraphicsState_doc is_bool.
    entries H8 ExtGraphicsState_head ExtGraphicsState_doc is_OverprintMode.
    entries H9 ExtGraphicsState_head ExtGraphicsState_doc is_name.
    entries H10 ExtGraphicsState_head ExtGraphicsState_doc is_name.
    entries H11 ExtGraphicsState_head ExtGraphicsState_doc is_name.
    entries H12 ExtGraphicsState_head ExtGraphicsState_doc halftone_reads.
    entries H13 ExtGraphicsState_head ExtGraphicsState_doc is_real.
    entries H14 ExtGraphicsState_head ExtGraphicsState_doc is_real.
    entries H15 ExtGraphicsState_head ExtGraphicsState_doc is_bool.
    entries H16 ExtGraphicsState_head ExtGraphicsState_doc is_BlendMode.
    entries H18 ExtGraphicsState_head ExtGraphicsState_doc is_real.
    entries H19 ExtGraphicsState_head ExtGraphicsState_doc is_real.
    entries H20 ExtGraphicsState_head ExtGraphicsState_doc is_bool.
    entries H21 ExtGraphicsState_head ExtGraphicsState_doc is_bool.
    destruct (related_found (lit "LW") is_real _ _ _ _ p0 Q H0 number_related) as (r0 & E0 & X0).
    destruct (related_found (lit "ML") is_real _ _ _ _ p3 Q H3 number_related) as (r3 & E3 & X3).
    destruct (related_found (lit "D") dash_reads _ _ _ _ p4 Q H4 dash_found) as (r4 & E4 & X4).
    destruct (related_found (lit "FL") is_real _ _ _ _ p13 Q H13 number_related) as (r13 & E13 & X13).
    destruct (related_found (lit "SM") is_real _ _ _ _ p14 Q H14 number_related) as (r14 & E14 & X14).
    assert (Y17 : exists r, optional (lit "SMask") d (read_mask_of resolved) = Some r /\ optionally mask_of_is p17 r).
    { apply (part_related (lit "SMask") mask_reads _ mask_of_written _ _ _ d p17 Q) with (2 := H17); [intros c H; entries H ExtGraphicsState_head ExtGraphicsState_doc mask_reads; exact H|exact mask_of_found]. }
    destruct Y17 as (r17 & E17 & X17).
    destruct (related_found (lit "CA") is_real _ _ _ _ p18 Q H18 number_related) as (r18 & E18 & X18).
    destruct (related_found (lit "ca") is_real _ _ _ _ p19 Q H19 number_related) as (r19 & E19 & X19).
    exists (mkStateParts r0 p1 p2 r3 r4 p5 p6 p7 p8 p9 p10 p11 p12 r13 r14 p15 p16 r17 r18 r19 p20 p21).
    split; [|unfold state_parts_is; repeat (split; [first [reflexivity|assumption]|]); first [reflexivity|assumption]].
    unfold read_state_parts. cbn [object_dict bind].
    rewrite E0. cbn [bind].
    rewrite (same_found (lit "LC") is_LineCapStyle _ _ _ p1 Q H1 (numbered_found _)). cbn [bind].
    rewrite (same_found (lit "LJ") is_LineJoinStyle _ _ _ p2 Q H2 (numbered_found _)). cbn [bind].
    rewrite E3. cbn [bind].
    rewrite E4. cbn [bind].
    rewrite (same_found (lit "RI") is_RenderingIntent _ _ _ p5 Q H5 (enum_found _)). cbn [bind].
    rewrite (same_found (lit "OP") is_bool _ _ _ p6 Q H6 bool_found). cbn [bind].
    rewrite (same_found (lit "op") is_bool _ _ _ p7 Q H7 bool_found). cbn [bind].
    rewrite (same_found (lit "OPM") is_OverprintMode _ _ _ p8 Q H8 (numbered_found _)). cbn [bind].
    rewrite (same_found (lit "BG2") is_name _ _ _ p9 Q H9 name_found). cbn [bind].
    rewrite (same_found (lit "UCR2") is_name _ _ _ p10 Q H10 name_found). cbn [bind].
    rewrite (same_found (lit "TR2") is_name _ _ _ p11 Q H11 name_found). cbn [bind].
    rewrite (same_found (lit "HT") halftone_reads _ _ _ p12 Q H12 halftone_found). cbn [bind].
    rewrite E13. cbn [bind].
    rewrite E14. cbn [bind].
    rewrite (same_found (lit "SA") is_bool _ _ _ p15 Q H15 bool_found). cbn [bind].
    rewrite (same_found (lit "BM") is_BlendMode _ _ _ p16 Q H16 (enum_found _)). cbn [bind].
    rewrite E17. cbn [bind].
    rewrite E18. cbn [bind].
    rewrite E19. cbn [bind].
    rewrite (same_found (lit "AIS") is_bool _ _ _ p20 Q H20 bool_found). cbn [bind].
    rewrite (same_found (lit "TK") is_bool _ _ _ p21 Q H21 bool_found). cbn [bind].
    reflexivity.
  Qed.
  Lemma tile_parts_found calls x v : tile_parts_written calls x -> is_dict (TilingPattern_reads calls) v -> exists r, (read_tile_parts resolved) v = Some r /\ tile_parts_is x r.
  Proof using Type.
    intros (H0 & H1 & H2 & H3 & H4 & H5) Q. destruct (dict_is _ _ Q) as [d ->]. destruct x as [p0 p1 p2 p3 p4 p5].
    cbn [tt_paint tt_spacing tt_box tt_x tt_y tt_matrix] in *.
    scallTilingPattern H0 is_PaintType.
    scallTilingPattern H1 is_TilingType.
    scallTilingPattern H3 is_real.
    scallTilingPattern H4 is_real.
    assert (Y2 : exists r, optional (lit "BBox") d read_numbers = Some r /\ optionally numbers_are p2 r).
    { apply (part_related (lit "BBox") is_rect _ rect_list _ _ _ d p2 Q) with (2 := H2); [intros c H; scallTilingPattern H is_rect; exact H|exact rect_numbers]. }
    destruct Y2 as (r2 & E2 & X2).
    destruct (related_found (lit "XStep") is_real _ _ _ _ p3 Q H3 number_related) as (r3 & E3 & X3).
    destruct (related_found (lit "YStep") is_real _ _ _ _ p4 Q H4 number_related) as (r4 & E4 & X4).
    assert (Y5 : exists r, optional (lit "Matrix") d read_numbers = Some r /\ optionally numbers_are p5 r).
    { apply (part_related (lit "Matrix") (fun m => is_reals (in_order6 m)) _ matrix_list _ _ _ d p5 Q) with (2 := H5); [intros c H; scallTilingPattern H (fun m => is_reals (in_order6 m)); exact H|exact matrix_numbers]. }
    destruct Y5 as (r5 & E5 & X5).
    exists (mkTileParts p0 p1 r2 r3 r4 r5).
    split; [|unfold tile_parts_is; repeat (split; [first [reflexivity|assumption]|]); first [reflexivity|assumption]].
    unfold read_tile_parts. cbn [object_dict bind].
    rewrite (same_found (lit "PaintType") is_PaintType _ _ _ p0 Q H0 (numbered_found _)). cbn [bind].
    rewrite (same_found (lit "TilingType") is_TilingType _ _ _ p1 Q H1 (numbered_found _)). cbn [bind].
    rewrite E2. cbn [bind].
    rewrite E3. cbn [bind].
    rewrite E4. cbn [bind].
    rewrite E5. cbn [bind].
    reflexivity.
  Qed.
  Lemma gradient_parts_found calls x v : gradient_parts_written calls x -> FunctionShading_reads calls v -> exists r, (read_gradient_parts resolved) v = Some r /\ gradient_parts_is x r.
  Proof using Type.
    intros (H0 & H1 & H2 & H3 & H4 & H5 & H6 & H7) Q. destruct (dict_is _ _ Q) as [d ->]. destruct x as [p0 p1 p2 p3 p4 p5 p6 p7].
    cbn [gt_type gt_background gt_box gt_anti gt_domain gt_matrix gt_coords gt_extend] in *.
    entries H0 FunctionShading_head FunctionShading_doc is_FunctionShadingType.
    entries H1 FunctionShading_head FunctionShading_doc is_reals.
    entries H3 FunctionShading_head FunctionShading_doc is_bool.
    entries H6 FunctionShading_head FunctionShading_doc is_reals.
    entries H7 FunctionShading_head FunctionShading_doc pair_reads.
    destruct (related_found (lit "Background") is_reals _ _ _ _ p1 Q H1 numbers_found) as (r1 & E1 & X1).
    assert (Y2 : exists r, optional (lit "BBox") d read_numbers = Some r /\ optionally numbers_are p2 r).
    { apply (part_related (lit "BBox") is_rect _ rect_list _ _ _ d p2 Q) with (2 := H2); [intros c H; entries H FunctionShading_head FunctionShading_doc is_rect; exact H|exact rect_numbers]. }
    destruct Y2 as (r2 & E2 & X2).
    assert (Y4 : exists r, optional (lit "Domain") d read_numbers = Some r /\ optionally numbers_are p4 r).
    { apply (part_related (lit "Domain") (fun m => is_reals (in_order4 m)) _ quad_list _ _ _ d p4 Q) with (2 := H4); [intros c H; entries H FunctionShading_head FunctionShading_doc (fun m => is_reals (in_order4 m)); exact H|exact quad_numbers]. }
    destruct Y4 as (r4 & E4 & X4).
    assert (Y5 : exists r, optional (lit "Matrix") d read_numbers = Some r /\ optionally numbers_are p5 r).
    { apply (part_related (lit "Matrix") (fun m => is_reals (in_order6 m)) _ matrix_list _ _ _ d p5 Q) with (2 := H5); [intros c H; entries H FunctionShading_head FunctionShading_doc (fun m => is_reals (in_order6 m)); exact H|exact matrix_numbers]. }
    destruct Y5 as (r5 & E5 & X5).
    destruct (related_found (lit "Coords") is_reals _ _ _ _ p6 Q H6 numbers_found) as (r6 & E6 & X6).
    exists (mkGradientParts p0 r1 r2 p3 r4 r5 r6 p7).
    split; [|unfold gradient_parts_is; repeat (split; [first [reflexivity|assumption]|]); first [reflexivity|assumption]].
    unfold read_gradient_parts. cbn [object_dict bind].
    rewrite (same_found (lit "ShadingType") is_FunctionShadingType _ _ _ p0 Q H0 (numbered_found _)). cbn [bind].
    rewrite E1. cbn [bind].
    rewrite E2. cbn [bind].
    rewrite (same_found (lit "AntiAlias") is_bool _ _ _ p3 Q H3 bool_found). cbn [bind].
    rewrite E4. cbn [bind].
    rewrite E5. cbn [bind].
    rewrite E6. cbn [bind].
    rewrite (same_found (lit "Extend") pair_reads _ _ _ p7 Q H7 pair_found). cbn [bind].
    reflexivity.
  Qed.
  Lemma mesh_parts_found calls x v : mesh_parts_written calls x -> is_dict (StreamShading_reads calls) v -> exists r, (read_mesh_parts resolved) v = Some r /\ mesh_parts_is x r.
  Proof using Type.
    intros (H0 & H1 & H2 & H3 & H4 & H5 & H6 & H7 & H8) Q. destruct (dict_is _ _ Q) as [d ->]. destruct x as [p0 p1 p2 p3 p4 p5 p6 p7 p8].
    cbn [ht_type ht_background ht_box ht_anti ht_coordinate ht_component ht_flag ht_decode ht_row] in *.
    scallStreamShading H0 is_StreamShadingType.
    scallStreamShading H1 is_reals.
    scallStreamShading H3 is_bool.
    scallStreamShading H4 is_int.
    scallStreamShading H5 is_int.
    scallStreamShading H6 is_int.
    scallStreamShading H7 is_reals.
    scallStreamShading H8 is_int.
    destruct (related_found (lit "Background") is_reals _ _ _ _ p1 Q H1 numbers_found) as (r1 & E1 & X1).
    assert (Y2 : exists r, optional (lit "BBox") d read_numbers = Some r /\ optionally numbers_are p2 r).
    { apply (part_related (lit "BBox") is_rect _ rect_list _ _ _ d p2 Q) with (2 := H2); [intros c H; scallStreamShading H is_rect; exact H|exact rect_numbers]. }
    destruct Y2 as (r2 & E2 & X2).
    destruct (related_found (lit "Decode") is_reals _ _ _ _ p7 Q H7 numbers_found) as (r7 & E7 & X7).
    exists (mkMeshParts p0 r1 r2 p3 p4 p5 p6 r7 p8).
    split; [|unfold mesh_parts_is; repeat (split; [first [reflexivity|assumption]|]); first [reflexivity|assumption]].
    unfold read_mesh_parts. cbn [object_dict bind].
    rewrite (same_found (lit "ShadingType") is_StreamShadingType _ _ _ p0 Q H0 (numbered_found _)). cbn [bind].
    rewrite E1. cbn [bind].
    rewrite E2. cbn [bind].
    rewrite (same_found (lit "AntiAlias") is_bool _ _ _ p3 Q H3 bool_found). cbn [bind].
    rewrite (same_found (lit "BitsPerCoordinate") is_int _ _ _ p4 Q H4 whole_found). cbn [bind].
    rewrite (same_found (lit "BitsPerComponent") is_int _ _ _ p5 Q H5 whole_found). cbn [bind].
    rewrite (same_found (lit "BitsPerFlag") is_int _ _ _ p6 Q H6 whole_found). cbn [bind].
    rewrite E7. cbn [bind].
    rewrite (same_found (lit "VerticesPerRow") is_int _ _ _ p8 Q H8 whole_found). cbn [bind].
    reflexivity.
  Qed.

  Lemma gradient_found p v d calls : gradient_parts_written calls p -> dict_or_stream decode resolved v = Some (d, None) -> FunctionShading_reads calls (VDict d) ->
    exists r, read_shade decode resolved v = Some r /\ shade_is (ByFunction p) r.
  Proof using Type.
    intros W E D. destruct (gradient_parts_found _ _ _ W D) as (r & X & Y). exists (ByFunction r). split; [|exact Y]. unfold read_shade. rewrite E. cbn [bind fst snd]. rewrite X. reflexivity.
  Qed.
  Lemma shade_id_found id x : shade_by_id decode ops id x -> exists r, read_shade decode resolved (VRef id 0) = Some r /\ shade_is x r.
  Proof using R.
    destruct x as [p|p]; cbn [shade_by_id].
    - intros (calls & I & W). destruct (found resolved ops R _ _ I) as (i & E & v & -> & D). destruct (dict_is _ _ D) as [d ->].
      apply (gradient_found p (VRef id 0) d calls W); [|exact D]. cbn [dict_or_stream]. rewrite E. reflexivity.
    - intros (data & calls & content & I & S & W).
      apply (stored_with_entries decode StreamShading_head StreamShading_doc) in S; [|reflexivity|each_call].
      destruct (found resolved ops R _ _ I) as (i & E & vs & -> & D).
      pose proof (stream_with_found decode resolved _ _ _ _ _ E D S) as K. destruct (mesh_parts_found calls p (VDict vs) W D) as (r & X & Y).
      exists (ByMesh r). split; [|exact Y]. unfold read_shade. cbn [dict_or_stream]. rewrite K, E. cbn [option_map bind fst snd].
      change (read_mesh_parts resolved (VDict ((lit "Length", VInt (blen data)) :: vs))) with (read_mesh_parts resolved (VDict vs)). rewrite X. reflexivity.
  Qed.
  Lemma shade_found c x v : shade_written decode ops c x -> shade_reads c v -> exists r, read_shade decode resolved v = Some r /\ shade_is x r.
  Proof using R.
    destruct c as [calls|id]; cbn [shade_written shade_reads].
    - destruct x as [p|]; [|contradiction]. intros W D. destruct (dict_is _ _ D) as [d ->]. apply (gradient_found p (VDict d) d calls W); [reflexivity|exact D].
    - unfold is_ref. intros W ->. exact (shade_id_found id x W).
  Qed.
  Lemma shaded_parts_found calls x v : shaded_parts_written decode ops calls x -> ShadingPattern_reads calls v -> exists r, (read_shaded_parts decode resolved) v = Some r /\ shaded_parts_is x r.
  Proof using R.
    intros (H0 & H1 & H2) Q. destruct (dict_is _ _ Q) as [d ->]. destruct x as [p0 p1 p2].
    cbn [sw_matrix sw_shading sw_state] in *.
    assert (Y0 : exists r, optional (lit "Matrix") d read_numbers = Some r /\ optionally numbers_are p0 r).
    { apply (part_related (lit "Matrix") (fun m => is_reals (in_order6 m)) _ matrix_list _ _ _ d p0 Q) with (2 := H0); [intros c H; entries H ShadingPattern_head ShadingPattern_doc (fun m => is_reals (in_order6 m)); exact H|exact matrix_numbers]. }
    destruct Y0 as (r0 & E0 & X0).
    assert (Y1 : exists r, optional (lit "Shading") d (read_shade decode resolved) = Some r /\ optionally shade_is p1 r).
    { apply (part_related (lit "Shading") shade_reads _ (shade_written decode ops) _ _ _ d p1 Q) with (2 := H1); [intros c H; entries H ShadingPattern_head ShadingPattern_doc shade_reads; exact H|exact shade_found]. }
    destruct Y1 as (r1 & E1 & X1).
    assert (Y2 : exists r, optional (lit "ExtGState") d (read_state_parts resolved) = Some r /\ optionally state_parts_is p2 r).
    { apply (part_related (lit "ExtGState") ExtGraphicsState_reads _ state_parts_written _ _ _ d p2 Q) with (2 := H2); [intros c H; entries H ShadingPattern_head ShadingPattern_doc ExtGraphicsState_reads; exact H|exact state_parts_found]. }
    destruct Y2 as (r2 & E2 & X2).
    exists (mkShadedParts r0 r1 r2).
    split; [|unfold shaded_parts_is; repeat (split; [first [reflexivity|assumption]|]); first [reflexivity|assumption]].
    unfold read_shaded_parts. cbn [object_dict bind].
    rewrite E0. cbn [bind].
    rewrite E1. cbn [bind].
    rewrite E2. cbn [bind].
    reflexivity.
  Qed.

  Lemma now_found {A B} (P : A -> B -> Prop) a (f : option B) : (exists r, f = Some r /\ P a r) -> finds P a (fun _ => f).
  Proof using Type. intros (r & E & H). exists r, 0%nat. split; [exact H|]. intros n _. exact E. Qed.
  Lemma state_in_found o x v : state_in ops o x -> means o v -> finds state_parts_is x (fun _ => read_state_parts resolved v).
  Proof using R.
    intros (calls & W & [(id & -> & I)|[-> O]]) M; apply now_found.
    - inversion M; subst. destruct (found resolved ops R _ _ I) as (i & E & v & -> & D). destruct (state_parts_found _ _ _ W D) as (r & X & Y). exists r. split; [|exact Y].
      destruct (dict_is _ _ D) as [d ->]. rewrite <- X. unfold read_state_parts at 1. cbn [object_dict]. rewrite E. reflexivity.
    - exact (state_parts_found _ _ _ W (proj2 (good_ExtGraphicsState _ O) _ M)).
  Qed.
  Lemma shade_in_found o x v : shade_in decode ops o x -> means o v -> finds shade_is x (fun _ => read_shade decode resolved v).
  Proof using R.
    intros [(id & -> & W)|W] M; apply now_found.
    - inversion M; subst. exact (shade_id_found _ _ W).
    - destruct x as [p|]; [|contradiction]. destruct W as (calls & C & O & W). pose proof (proj2 (good_FunctionShading _ _ O C) _ M) as D. destruct (dict_is _ _ D) as [d ->].
      apply (gradient_found p (VDict d) d calls W); [reflexivity|exact D].
  Qed.
  Lemma shaded_found p v d calls : shaded_parts_written decode ops calls p -> dict_or_stream decode resolved v = Some (d, None) -> ShadingPattern_reads calls (VDict d) ->
    exists r, read_pattern_of decode resolved v = Some r /\ pattern_of_is (Shaded p) r.
  Proof using R.
    intros W E D. destruct (shaded_parts_found _ _ _ W D) as (r & X & Y). exists (Shaded r). split; [|exact Y]. unfold read_pattern_of. rewrite E. cbn [bind fst snd].
    assert (T : lookup (lit "PatternType") d = Some (VInt 2)).
    { clear - D. destruct D as (d' & Q & F). injection Q as <-. inversion F as [|? [k1 v1] ? ? [Q1 Q2] F1]; subst. inversion F1 as [|? [k2 v2] ? ? [Q3 Q4] F2]; subst. cbn [fst snd] in *. unfold is_int in Q4. subst.
      reflexivity. }
    unfold required. rewrite T. cbn [bind read_whole]. change (2 =? 1) with false. change (2 =? 2) with true. cbv iota. rewrite X. reflexivity.
  Qed.
  Lemma pattern_in_found o x v : pattern_in decode ops o x -> means o v -> finds pattern_of_is x (fun _ => read_pattern_of decode resolved v).
  Proof using R.
    intros W M. apply now_found. destruct x as [p|p]; cbn [pattern_in] in W.
    - destruct W as (id & data & calls & content & -> & I & S & W). inversion M; subst.
      apply (stored_with_entries decode TilingPattern_head TilingPattern_doc) in S; [|reflexivity|each_call].
      destruct (found resolved ops R _ _ I) as (i & E & vs & -> & D).
      pose proof (stream_with_found decode resolved _ _ _ _ _ E D S) as K. destruct (tile_parts_found calls p (VDict vs) W D) as (r & X & Y).
      exists (Tiled r). split; [|exact Y]. unfold read_pattern_of. cbn [dict_or_stream]. rewrite K, E. cbn [option_map bind fst snd].
      assert (T : lookup (lit "PatternType") ((lit "Length", VInt (blen data)) :: vs) = Some (VInt 1)).
      { clear - D. destruct D as (d & Q & F). injection Q as <-. inversion F as [|? [k1 v1] ? ? [Q1 Q2] F1]; subst. inversion F1 as [|? [k2 v2] ? ? [Q3 Q4] F2]; subst. cbn [fst snd] in *. unfold is_int in Q4. subst.
        reflexivity. }
      unfold required. rewrite T. cbn [bind read_whole]. change (1 =? 1) with true. cbv iota.
      change (read_tile_parts resolved (VDict ((lit "Length", VInt (blen data)) :: vs))) with (read_tile_parts resolved (VDict vs)). rewrite X. reflexivity.
    - destruct W as (calls & W & [(id & -> & I)|[C O]]).
      + inversion M; subst. destruct (found resolved ops R _ _ I) as (i & E & v & -> & D). destruct (dict_is _ _ D) as [d ->].
        apply (shaded_found p (VRef id 0) d calls W); [|exact D]. cbn [dict_or_stream]. rewrite E. reflexivity.
      + pose proof (proj2 (good_ShadingPattern _ _ O C) _ M) as D. destruct (dict_is _ _ D) as [d ->]. apply (shaded_found p (VDict d) d calls W); [reflexivity|exact D].
  Qed.
  Lemma named_states_found res rv x : named_states_written decode ops res x -> Resources_reads res rv ->
    exists r, read_named_states decode resolved rv = Some r /\ named_states_are x r.
  Proof using R.
    intros (W1 & W2 & W3) D. destruct (dict_is _ _ D) as [d ->].
    destruct (category_found state_parts_is _ (fun _ => read_state_parts resolved) (called (lit "ExtGState") <| Resources_ext_g_states es => es |> res) (lit "ExtGState") _ _ _ D
      (fun o H => ltac:(entries H Resources_head Resources_doc (fun es => means (ODict es)); exact H)) state_in_found W1) as (r1 & d1 & H1 & G1).
    destruct (category_found shade_is _ (fun _ => read_shade decode resolved) (called (lit "Shading") <| Resources_shadings es => es |> res) (lit "Shading") _ _ _ D
      (fun o H => ltac:(entries H Resources_head Resources_doc (fun es => means (ODict es)); exact H)) shade_in_found W2) as (r2 & d2 & H2 & G2).
    destruct (category_found pattern_of_is _ (fun _ => read_pattern_of decode resolved) (called (lit "Pattern") <| Resources_patterns es => es |> res) (lit "Pattern") _ _ _ D
      (fun o H => ltac:(entries H Resources_head Resources_doc (fun es => means (ODict es)); exact H)) pattern_in_found W3) as (r3 & d3 & H3 & G3).
    exists (mkNamedStates r1 r2 r3). split; [|split; [exact H1|split; [exact H2|exact H3]]]. unfold read_named_states.
    rewrite (G1 d1 (le_n _)). cbn [bind]. rewrite (G2 d2 (le_n _)). cbn [bind]. rewrite (G3 d3 (le_n _)). reflexivity.
  Qed.
End Walk.

(** A reader that starts from the trailer finds for every page, under their names, the graphics state dictionaries, shadings and patterns with the parameters
    that the program gave them. *)
Theorem C94_states : forall decode ops cat file calls tree asked,
  finished_document decode ops cat file -> In (DocCatalog cat calls) ops -> views_written decode ops calls tree ->
  Forall2 (fun p x => named_states_written decode ops (pa_resources p) x) (vt_pages [] tree) asked ->
  exists rs depth, Forall2 named_states_are asked rs /\ forall n, (depth <= n)%nat -> read_page_states decode n file = Some rs.
Proof.
  intros decode ops cat file calls tree asked D I V W. destruct (document_facts _ _ _ _ D) as [X _]. destruct (views_found _ _ _ _ _ _ D I V) as (vs & F & P).
  assert (Y : exists rs, SpecNav.all_of (map (fun v => read_named_states decode (resolve decode file) (snd (fst v))) vs) = Some rs /\ Forall2 named_states_are asked rs).
  { clear - F W X. revert asked W. induction F as [|p v ps vs (H1 & H2 & H3) F IH]; intros asked W; inversion W as [|? x ? xs W1 W2]; subst; [exists []; split; [reflexivity|constructor]|].
    destruct (IH _ W2) as (rs & A & B). destruct (named_states_found decode (resolve decode file) ops X _ _ x W1 H2) as (r & E & Z). exists (r :: rs).
    split; [|constructor; assumption]. cbn [map SpecNav.all_of]. rewrite E, A. reflexivity. }
  destruct Y as (rs & A & B). exists rs, (vt_depth tree). split; [exact B|]. intros n Hn. unfold read_page_states. rewrite (P n Hn). cbn [bind]. exact A.
Qed.

(** ** A page with a graphics state, a mesh, a tiling pattern and a shading pattern *)
Definition states_unit : rect := mkRect f32_zero f32_zero one one.
Definition states_state : ExtGraphicsState_calls := [Typed (ExtGraphicsState_line_width one); Typed (ExtGraphicsState_line_cap ModelContent.RoundCap);
  Typed (ExtGraphicsState_dash_pattern [one; f32_zero] one); Typed (ExtGraphicsState_rendering_intent ModelContent.Perceptual); Typed (ExtGraphicsState_overprint_fill true);
  Typed ExtGraphicsState_halftone_default; Typed (ExtGraphicsState_blend_mode BlendMode_Multiply);
  Typed (ExtGraphicsState_soft_mask [Typed (SoftMask_subtype MaskType_Alpha); Typed (SoftMask_group 9); Typed (SoftMask_backdrop [one])]);
  Typed (ExtGraphicsState_non_stroking_alpha f32_zero); Raw (lit "Extra") (OPrim (PBool true))].
Definition states_gradient : FunctionShading_calls := [Typed (FunctionShading_shading_type FunctionShadingType_Axial); Typed (FunctionShading_color_space CsDeviceRgb);
  Typed (FunctionShading_coords [f32_zero; f32_zero; one; f32_zero]); Typed (FunctionShading_extend (true, false))].
Definition states_mesh : StreamShading_calls := [STyped (StreamShading_shading_type StreamShadingType_LatticeGouraud); STyped (StreamShading_color_space CsDeviceGray);
  STyped (StreamShading_bits_per_coordinate 8); STyped (StreamShading_bits_per_component 4); STyped (StreamShading_decode [f32_zero; one]); STyped (StreamShading_vertices_per_row 2)].
Definition states_tile : TilingPattern_calls := [STyped (TilingPattern_paint_type PaintType_Colored); STyped (TilingPattern_tiling_type TilingType_FastConstantSpacing);
  STyped (TilingPattern_bbox states_unit); STyped (TilingPattern_x_step one); STyped (TilingPattern_y_step one); STyped (TilingPattern_resources [])].
Definition states_shaded : ShadingPattern_calls := [Typed (ShadingPattern_shading_ref 6); Typed (ShadingPattern_matrix ((one, f32_zero, f32_zero), (one, f32_zero, f32_zero)));
  Typed (ShadingPattern_ext_graphics states_state)].
Definition states_resources : Resources_calls := [
  Typed (Resources_ext_g_states [(lit "G1", OPrim (PRef 5)); (lit "G2", ExtGraphicsState_obj [Typed (ExtGraphicsState_font (lit "F") one)])]);
  Typed (Resources_shadings [(lit "S1", OPrim (PRef 6))]);
  Typed (Resources_patterns [(lit "P1", OPrim (PRef 7)); (lit "P2", OPrim (PRef 8))])].
Definition states_sample : list doc_op := [
  DocTyped 2 (Ck_pages [Typed (Pages_kids [3]); Typed (Pages_resources states_resources)]);
  DocTyped 3 (Ck_page [Typed (Page_contents 4)]);
  DocTyped 4 (Ck_stream (content_of []) []);
  DocTyped 5 (Ck_ext_graphics states_state);
  DocTyped 6 (Ck_stream_shading [x00; xff] states_mesh);
  DocTyped 7 (Ck_tiling_pattern (content_of []) states_tile);
  DocTyped 8 (Ck_shading_pattern states_shaded);
  DocCatalog 1 [Typed (Catalog_pages 2)]].
Definition states_tree : view_tree := VtNode 2 (Some states_resources) [VtPage 3 None (OneStream [])].
Definition states_parts {N} (o i : N) : named_states N :=
  let st := mkStateParts (Some i) (Some ModelContent.RoundCap) None None (Some ([i; o], i)) (Some ModelContent.Perceptual) None (Some true) None None None None (Some None) None None
    None (Some BlendMode_Multiply) (Some (GroupMask (mkMaskParts (Some MaskType_Alpha) (Some [i])))) None (Some o) None None in
  let me := ByMesh (mkMeshParts (Some StreamShadingType_LatticeGouraud) None None None (Some 8) (Some 4) None (Some [o; i]) (Some 2)) in
  mkNamedStates
    [(lit "G1", st); (lit "G2", mkStateParts None None None None None None None None None None None None None None None None None None None None None None)]
    [(lit "S1", me)]
    [(lit "P1", Tiled (mkTileParts (Some PaintType_Colored) (Some TilingType_FastConstantSpacing) (Some [o; o; i; i]) (Some i) (Some i) None));
     (lit "P2", Shaded (mkShadedParts (Some [i; o; o; i; o; o]) (Some me) (Some st)))].
Ltac states_parts_given := repeat (split; [first [reflexivity|eexists; split; reflexivity|eexists; split; [reflexivity|split; reflexivity]]|]); first [reflexivity|eexists; split; reflexivity].
Example C94_case : views_written no_filter states_sample [Typed (Catalog_pages 2)] states_tree /\
  Forall2 (fun p x => named_states_written no_filter states_sample (pa_resources p) x) (vt_pages [] states_tree) [states_parts f32_zero one].
Proof.
  assert (ST : state_parts_written states_state (snd (nth 0 (ns_states (states_parts f32_zero one)) (lit "", mkStateParts None None None None None None None None None None None None None None None None None None None None None None)))).
  { states_parts_given. }
  assert (ME : shade_by_id no_filter states_sample 6 (ByMesh (mkMeshParts (Some StreamShadingType_LatticeGouraud) None None None (Some 8) (Some 4) None (Some [f32_zero; one]) (Some 2)))).
  { exists [x00; xff], states_mesh, [x00; xff]. split; [cbn [states_sample In]; tauto|]. split; [exists None; split; reflexivity|]. states_parts_given. }
  split.
  - split; [reflexivity|]. split; [eexists; split; [cbn [states_sample In]; tauto|split; reflexivity]|].
    split; [|exact Logic.I]. eexists. split; [cbn [states_sample In]; tauto|]. split; [reflexivity|]. eexists. split; [reflexivity|].
    apply content_case; [cbn [states_sample In]; tauto|vm_compute; reflexivity|vm_compute; discriminate].
  - constructor; [|constructor]. split; [|split]; right; (eexists; split; [reflexivity|]); repeat (apply Forall2_cons; [split; [reflexivity|]|]); try apply Forall2_nil.
    + exists states_state. split; [exact ST|]. left. exists 5. split; [reflexivity|]. cbn [states_sample In]; tauto.
    + exists [Typed (ExtGraphicsState_font (lit "F") one)]. split; [states_parts_given|]. right. split; [reflexivity|vm_compute; reflexivity].
    + left. exists 6. split; [reflexivity|exact ME].
    + exists 7, (content_of []), states_tile, (content_of []). split; [reflexivity|]. split; [cbn [states_sample In]; tauto|]. split; [exists None; split; reflexivity|]. states_parts_given.
    + exists states_shaded. split; [|left; exists 8; split; [reflexivity|]; cbn [states_sample In]; tauto].
      split; [eexists; split; reflexivity|]. split; [eexists; split; [reflexivity|exact ME]|]. eexists. split; [reflexivity|exact ST].
Qed.
(** And the file is really read so. *)
Example C94_file : exists file, finished_document no_filter states_sample 1 file /\
  read_page_states no_filter 2 file = Some [states_parts (VInt 0) (VInt 1)].
Proof.
  assert (X : match doc_run states_sample (pdf_with_settings true) with
              | Some p => match finish p with Some f => (blen f <=? 10 ^ 10, read_page_states no_filter 2 f) | None => (false, None) end
              | None => (false, None) end = (true, Some [states_parts (VInt 0) (VInt 1)])) by (vm_compute; reflexivity).
  destruct (doc_run states_sample (pdf_with_settings true)) as [p|] eqn:R; [|discriminate].
  destruct (finish p) as [file|] eqn:F; [|discriminate]. exists file.
  split; [apply (finished_table _ _ _ _ true p); [|exact R|exact F| |apply Z.leb_le; exact (f_equal fst X)|reflexivity]|].
  - repeat (apply Forall_cons; [cbn [doc_op_ok op_typed]; repeat split|]); apply Forall_nil.
  - unfold ids_below; repeat constructor.
  - exact (f_equal snd X).
Qed.

Print Assumptions C94_states.
