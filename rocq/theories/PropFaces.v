(** C90: the details of fonts, from the trailer on. *)

From Coq Require Import ZArith List Bool Lia.
From Verif Require SpecInfo ModelCmap ModelContent SpecContent SpecForm PropForm.
From Verif Require Import Bytes ModelFloat ModelBuf ModelObject ModelChunk ModelColor ModelSmall ModelPdf ModelTw ModelEnums ModelRoles ModelTwArgs
  ModelTwFiles ModelTwGraphics ModelTwAnnot ModelTwForms ModelTwAttr ModelTwXObj ModelTwFonts ModelTwDoc ModelFontDesc ModelDoc
  SpecLex SpecObj SpecText SpecMeans SpecRenum SpecChunk SpecFile SpecPdf SpecTyped SpecColor SpecSmall SpecTw SpecEnums SpecRoles SpecTwArgs
  SpecTwFiles SpecTwGraphics SpecTwAnnot SpecTwForms SpecTwAttr SpecTwXObj SpecTwFonts SpecTwDoc SpecFontDesc SpecDoc SpecPages SpecExtract SpecNav SpecViews SpecTagged SpecPaint SpecFunctions SpecActions SpecPresent SpecColors SpecImages SpecAppear SpecAttrs SpecMarks SpecFields SpecGlyphs SpecFaces
  ProofBasic ProofTree ProofTyped ProofTw ProofTwDoc PropDoc PropPdf2 PropPages PropExtract PropNav PropTagged PropInfo PropPaint PropFunctions PropColors PropActions PropPresent PropImages PropAppear PropAttrs PropGlyphs PropFields.
Import ListNotations.
Local Open Scope Z_scope.

Ltac dcall H P := apply (descriptor_entries _ P) in H; [|reflexivity|let c := fresh in intro c; destruct c; exact Logic.I || reflexivity].
Ltac cmcall H P := sentries H Cmap_head Cmap_doc P.
Lemma rect_numbers r l v : rect_list r l -> is_rect r v -> exists b, read_numbers v = Some b /\ numbers_are l b.
Proof. intros ->. exact (rect_related r v). Qed.
Lemma matrix_numbers m l v : matrix_list m l -> is_reals (in_order6 m) v -> exists b, read_numbers v = Some b /\ numbers_are l b.
Proof. intros ->. exact (numbers_found (in_order6 m) v). Qed.
Lemma system_info_found i v : is_system_info i v -> read_system_info v = Some i.
Proof.
  intros (d & -> & F). inversion F as [|? [k1 v1] ? ? [A1 B1] F1]; subst. inversion F1 as [|? [k2 v2] ? ? [A2 B2] F2]; subst.
  inversion F2 as [|? [k3 v3] ? ? [A3 B3] F3]; subst. inversion F3; subst. cbn [fst snd] in *. unfold is_str, is_int in *. subst. destruct i. reflexivity.
Qed.
Definition style_reads (s : Byte.byte * Byte.byte * list Byte.byte) : val -> Prop := is_style (fst (fst s)) (snd (fst s)) (snd s).
Lemma style_found resolved s l v : style_list s l -> style_reads s v -> read_style resolved v = Some l.
Proof.
  destruct s as [[class subclass] panose]. intros [-> Hl] V. unfold style_reads in V. cbn [fst snd] in V. destruct V as (d & -> & F).
  inversion F as [|? [k v] ? ? [A B] F']; subst. inversion F'; subst. cbn [fst snd] in *. subst k. destruct B as (s & -> & L & N0 & N1 & N).
  unfold read_style. cbn [object_dict bind]. unfold required. change (lookup (lit "Panose") [(lit "Panose", VStr s)]) with (Some (VStr s)). cbn [bind read_string]. f_equal.
  apply (nth_ext _ _ Byte.x00 Byte.x00); [cbn [length]; rewrite L, Hl; reflexivity|]. intros [|[|i]] Hi; cbn [nth]; [exact N0|exact N1|].
  rewrite <- (N i) by lia. reflexivity.
Qed.
Definition used_reads (x : bytes + Z) : val -> Prop := match x with inl n => is_name n | inr id => is_ref id end.

Section Walk.
  Variables (decode : option val -> bytes -> option bytes) (resolved : Z -> option indirect) (ops : list doc_op).
  Hypothesis R : Forall (fun op => doc_op_reads op resolved) ops.

  Lemma data_at id x v : data_written decode ops id x -> is_ref id v -> read_data decode resolved v = Some x.
  Proof using R. intros W ->. exact (data_found decode resolved ops R id x W). Qed.
  Lemma used_found x m v : used_written decode ops x m -> used_reads x v -> read_used decode resolved v = Some m.
  Proof using R.
    destruct x as [n|id], m as [n'|content]; cbn [used_written used_reads]; try contradiction.
    - intros -> ->. reflexivity.
    - intros (calls & data & I & S) ->. unfold read_used, read_data. cbn [read_id bind]. rewrite (cmap_stream decode resolved ops R _ _ _ _ I S). reflexivity.
  Qed.
  Lemma descriptor_parts_found calls x v : descriptor_parts_written decode ops calls x -> fd_reads calls v -> exists r, (read_descriptor_parts decode resolved) v = Some r /\ descriptor_parts_is x r.
  Proof using R.
    intros (H0 & H1 & H2 & H3 & H4 & H5 & H6 & H7 & H8 & H9 & H10 & H11 & H12 & H13 & H14 & H15 & H16 & H17 & H18 & H19 & H20 & H21 & H22) Q. destruct (dict_is _ _ Q) as [d ->]. destruct x as [p0 p1 p2 p3 p4 p5 p6 p7 p8 p9 p10 p11 p12 p13 p14 p15 p16 p17 p18 p19 p20 p21 p22].
    cbn [dt_name dt_family dt_stretch dt_weight dt_flags dt_box dt_angle dt_ascent dt_descent dt_leading dt_cap dt_x dt_stem_v dt_stem_h dt_average dt_greatest dt_missing dt_program dt_program2 dt_program3 dt_chars dt_cids dt_style] in *.
    dcall H0 is_name.
    dcall H1 is_str.
    dcall H2 is_FontStretch.
    dcall H3 is_int.
    dcall H6 is_real.
    dcall H7 is_real.
    dcall H8 is_real.
    dcall H9 is_real.
    dcall H10 is_real.
    dcall H11 is_real.
    dcall H12 is_real.
    dcall H13 is_real.
    dcall H14 is_real.
    dcall H15 is_real.
    dcall H16 is_real.
    dcall H20 is_str.
    assert (Y5 : exists r, optional (lit "FontBBox") d read_numbers = Some r /\ optionally numbers_are p5 r).
    { apply (part_related (lit "FontBBox") is_rect _ rect_list _ _ _ d p5 Q) with (2 := H5); [intros c H; dcall H is_rect; exact H|exact rect_numbers]. }
    destruct Y5 as (r5 & E5 & X5).
    destruct (related_found (lit "ItalicAngle") is_real _ _ _ _ p6 Q H6 number_related) as (r6 & E6 & X6).
    destruct (related_found (lit "Ascent") is_real _ _ _ _ p7 Q H7 number_related) as (r7 & E7 & X7).
    destruct (related_found (lit "Descent") is_real _ _ _ _ p8 Q H8 number_related) as (r8 & E8 & X8).
    destruct (related_found (lit "Leading") is_real _ _ _ _ p9 Q H9 number_related) as (r9 & E9 & X9).
    destruct (related_found (lit "CapHeight") is_real _ _ _ _ p10 Q H10 number_related) as (r10 & E10 & X10).
    destruct (related_found (lit "XHeight") is_real _ _ _ _ p11 Q H11 number_related) as (r11 & E11 & X11).
    destruct (related_found (lit "StemV") is_real _ _ _ _ p12 Q H12 number_related) as (r12 & E12 & X12).
    destruct (related_found (lit "StemH") is_real _ _ _ _ p13 Q H13 number_related) as (r13 & E13 & X13).
    destruct (related_found (lit "AvgWidth") is_real _ _ _ _ p14 Q H14 number_related) as (r14 & E14 & X14).
    destruct (related_found (lit "MaxWidth") is_real _ _ _ _ p15 Q H15 number_related) as (r15 & E15 & X15).
    destruct (related_found (lit "MissingWidth") is_real _ _ _ _ p16 Q H16 number_related) as (r16 & E16 & X16).
    exists (mkDescriptorParts p0 p1 p2 p3 p4 r5 r6 r7 r8 r9 r10 r11 r12 r13 r14 r15 r16 p17 p18 p19 p20 p21 p22).
    split; [|unfold descriptor_parts_is; repeat (split; [first [reflexivity|assumption]|]); first [reflexivity|assumption]].
    unfold read_descriptor_parts. cbn [object_dict bind].
    rewrite (same_found (lit "FontName") is_name _ _ _ p0 Q H0 name_found). cbn [bind].
    rewrite (same_found (lit "FontFamily") is_str _ _ _ p1 Q H1 str_found). cbn [bind].
    rewrite (same_found (lit "FontStretch") is_FontStretch _ _ _ p2 Q H2 (enum_found _)). cbn [bind].
    rewrite (same_found (lit "FontWeight") is_int _ _ _ p3 Q H3 whole_found). cbn [bind].
    rewrite (part_same (lit "Flags") (is_flags FontFlags_pos) _ (fun l x => x = positions_of FontFlags_pos l) _ _ d p4 Q) with (2 := H4); [|intros c H; dcall H (is_flags FontFlags_pos); exact H|exact (flags_found FontFlags_pos)]. cbn [bind].
    rewrite E5. cbn [bind].
    rewrite E6. cbn [bind].
    rewrite E7. cbn [bind].
    rewrite E8. cbn [bind].
    rewrite E9. cbn [bind].
    rewrite E10. cbn [bind].
    rewrite E11. cbn [bind].
    rewrite E12. cbn [bind].
    rewrite E13. cbn [bind].
    rewrite E14. cbn [bind].
    rewrite E15. cbn [bind].
    rewrite E16. cbn [bind].
    rewrite (part_same (lit "FontFile") is_ref _ (data_written decode ops) _ _ d p17 Q) with (2 := H17); [|intros c H; dcall H is_ref; exact H|exact data_at]. cbn [bind].
    rewrite (part_same (lit "FontFile2") is_ref _ (data_written decode ops) _ _ d p18 Q) with (2 := H18); [|intros c H; dcall H is_ref; exact H|exact data_at]. cbn [bind].
    rewrite (part_same (lit "FontFile3") is_ref _ (data_written decode ops) _ _ d p19 Q) with (2 := H19); [|intros c H; dcall H is_ref; exact H|exact data_at]. cbn [bind].
    rewrite (same_found (lit "CharSet") is_str _ _ _ p20 Q H20 str_found). cbn [bind].
    rewrite (part_same (lit "CIDSet") is_ref _ (data_written decode ops) _ _ d p21 Q) with (2 := H21); [|intros c H; dcall H is_ref; exact H|exact data_at]. cbn [bind].
    rewrite (part_same (lit "Style") style_reads _ style_list _ _ d p22 Q) with (2 := H22); [|intros c H; dcall H style_reads; exact H|exact (style_found resolved)]. cbn [bind].
    reflexivity.
  Qed.
  Lemma cmap_parts_found calls x v : cmap_parts_written decode ops calls x -> is_dict (Cmap_reads calls) v -> (read_cmap_parts decode resolved) v = Some x.
  Proof using R.
    intros (H0 & H1 & H2 & H3) Q. destruct (dict_is _ _ Q) as [d ->]. destruct x as [p0 p1 p2 p3].
    cbn [mp_name mp_info mp_mode mp_base] in *.
    cmcall H0 is_name.
    cmcall H1 is_system_info.
    cmcall H2 is_WMode.
    unfold read_cmap_parts. cbn [object_dict bind].
    rewrite (same_found (lit "CMapName") is_name _ _ _ p0 Q H0 name_found). cbn [bind].
    rewrite (same_found (lit "CIDSystemInfo") is_system_info _ _ _ p1 Q H1 system_info_found). cbn [bind].
    rewrite (same_found (lit "WMode") is_WMode _ _ _ p2 Q H2 (numbered_found _)). cbn [bind].
    rewrite (part_same (lit "UseCMap") used_reads _ (used_written decode ops) _ _ d p3 Q) with (2 := H3); [|intros c H; cmcall H used_reads; exact H|exact used_found]. cbn [bind].
    reflexivity.
  Qed.
  Lemma simple_parts_found calls x v : simple_parts_written calls x -> Type1Font_reads calls v -> (read_simple_parts resolved) v = Some x.
  Proof using Type.
    intros (H0 & H1) Q. destruct (dict_is _ _ Q) as [d ->]. destruct x as [p0 p1].
    cbn [sp_name sp_base] in *.
    entries H0 Type1Font_head Type1Font_doc is_name.
    entries H1 Type1Font_head Type1Font_doc is_name.
    unfold read_simple_parts. cbn [object_dict bind].
    rewrite (same_found (lit "Name") is_name _ _ _ p0 Q H0 name_found). cbn [bind].
    rewrite (same_found (lit "BaseFont") is_name _ _ _ p1 Q H1 name_found). cbn [bind].
    reflexivity.
  Qed.
  Lemma drawn_parts_found calls x v : drawn_parts_written calls x -> Type3Font_reads calls v -> exists r, (read_drawn_parts resolved) v = Some r /\ drawn_parts_is x r.
  Proof using Type.
    intros (H0 & H1 & H2) Q. destruct (dict_is _ _ Q) as [d ->]. destruct x as [p0 p1 p2].
    cbn [dp_name dp_box dp_matrix] in *.
    entries H0 Type3Font_head Type3Font_doc is_name.
    assert (Y1 : exists r, optional (lit "FontBBox") d read_numbers = Some r /\ optionally numbers_are p1 r).
    { apply (part_related (lit "FontBBox") is_rect _ rect_list _ _ _ d p1 Q) with (2 := H1); [intros c H; entries H Type3Font_head Type3Font_doc is_rect; exact H|exact rect_numbers]. }
    destruct Y1 as (r1 & E1 & X1).
    assert (Y2 : exists r, optional (lit "FontMatrix") d read_numbers = Some r /\ optionally numbers_are p2 r).
    { apply (part_related (lit "FontMatrix") (fun m => is_reals (in_order6 m)) _ matrix_list _ _ _ d p2 Q) with (2 := H2); [intros c H; entries H Type3Font_head Type3Font_doc (fun m => is_reals (in_order6 m)); exact H|exact matrix_numbers]. }
    destruct Y2 as (r2 & E2 & X2).
    exists (mkDrawnParts p0 r1 r2).
    split; [|unfold drawn_parts_is; repeat (split; [first [reflexivity|assumption]|]); first [reflexivity|assumption]].
    unfold read_drawn_parts. cbn [object_dict bind].
    rewrite (same_found (lit "Name") is_name _ _ _ p0 Q H0 name_found). cbn [bind].
    rewrite E1. cbn [bind].
    rewrite E2. cbn [bind].
    reflexivity.
  Qed.
  Lemma cid_parts_found calls x v : cid_parts_written calls x -> CidFont_reads calls v -> (read_cid_parts resolved) v = Some x.
  Proof using Type.
    intros (H0 & H1 & H2) Q. destruct (dict_is _ _ Q) as [d ->]. destruct x as [p0 p1 p2].
    cbn [cp_type cp_base cp_info] in *.
    entries H0 CidFont_head CidFont_doc is_CidFontType.
    entries H1 CidFont_head CidFont_doc is_name.
    entries H2 CidFont_head CidFont_doc is_system_info.
    unfold read_cid_parts. cbn [object_dict bind].
    rewrite (same_found (lit "Subtype") is_CidFontType _ _ _ p0 Q H0 (enum_found _)). cbn [bind].
    rewrite (same_found (lit "BaseFont") is_name _ _ _ p1 Q H1 name_found). cbn [bind].
    rewrite (same_found (lit "CIDSystemInfo") is_system_info _ _ _ p2 Q H2 system_info_found). cbn [bind].
    reflexivity.
  Qed.

  Fixpoint tree_depth {N} (t : descriptor_tree N) : nat :=
    match t with
    | DescriptorTree _ None => 1%nat
    | DescriptorTree _ (Some l) => S ((fix deepest l := match l with [] => 0%nat | (_, t) :: l => Nat.max (tree_depth t) (deepest l) end) l)
    end.
  Definition is_tree (t : descriptor_tree f32) (calls : list fd_call) : Prop := forall v, fd_reads calls v ->
    exists r, tree_is t r /\ forall n, (tree_depth t <= n)%nat -> read_descriptor_tree decode resolved n v = Some r.
  Lemma tree_at (t : descriptor_tree f32) id calls : In (DocTyped id (Ck_font_descriptor calls)) ops -> is_tree t calls ->
    exists r, tree_is t r /\ forall n, (tree_depth t <= n)%nat -> read_descriptor_tree decode resolved n (VRef id 0) = Some r.
  Proof using R.
    intros I H. destruct (found resolved ops R _ _ I) as (i & E & v & -> & D). destruct (H v D) as (r & X & Y). exists r. split; [exact X|]. intros n L. rewrite <- (Y n L).
    destruct (dict_is _ _ D) as [d ->]. destruct n as [|n]; [reflexivity|]. cbn [read_descriptor_tree]. unfold read_descriptor_parts. cbn [object_dict]. rewrite E. reflexivity.
  Qed.
  Lemma class_found (t : descriptor_tree f32) name c w : (forall calls, descriptor_tree_written decode ops t calls -> is_tree t calls) ->
    class_given ops (descriptor_tree_written decode ops t) name c -> Forall2 (fun e x => fst x = fst e /\ snd e (snd x)) (ov_doc c) w ->
    exists v r, w = [(name, v)] /\ tree_is t r /\ forall n, (tree_depth t <= n)%nat -> read_descriptor_tree decode resolved n v = Some r.
  Proof using R.
    intros IH G F. destruct c as [k calls|k id|k calls|k id|]; cbn [class_given ov_doc] in *; [| | | |contradiction];
      inversion F as [|? [k' v] ? ? [A B] F']; subst; inversion F'; subst; cbn [fst snd] in *; subst k'; destruct G as [<- G]; exists v.
    - destruct (IH calls G v B) as (r & X & Y). exists r. split; [reflexivity|split; assumption].
    - destruct G as (calls & I & G). unfold is_ref in B. subst v. destruct (tree_at t id calls I (IH calls G)) as (r & X & Y). exists r. split; [reflexivity|split; assumption].
    - destruct (IH calls G v B) as (r & X & Y). exists r. split; [reflexivity|split; assumption].
    - destruct G as (calls & I & G). unfold is_ref in B. subst v. destruct (tree_at t id calls I (IH calls G)) as (r & X & Y). exists r. split; [reflexivity|split; assumption].
  Qed.
  Lemma tree_found : forall (t : descriptor_tree f32) calls, descriptor_tree_written decode ops t calls -> is_tree t calls.
  Proof using R.
    fix IH 1. intros [own classes] calls W v D. cbn [descriptor_tree_written] in W. destruct W as [W1 W2].
    destruct (descriptor_parts_found calls own v W1 D) as (o & X & Y). destruct (dict_is _ _ D) as [d ->].
    destruct classes as [l|].
    - destruct W2 as (cs & W2 & W3). dcall W2 (fun cs => is_dict (flat_map ov_doc cs)). cbn [option_map entry_or_none] in W2.
      destruct (dict_lookup (lit "FD") _ _ _ D W2) as (w & L & ws & -> & F).
      assert (Z : exists l', Forall2 (fun a r => fst r = fst a /\ tree_is (snd a) (snd r)) l l' /\
        forall n, ((fix deepest l := match l with [] => 0%nat | (_, t) :: l => Nat.max (tree_depth t) (deepest l) end) l <= n)%nat ->
          SpecNav.all_of (map (fun e => option_map (pair (fst e)) (read_descriptor_tree decode resolved n (snd e))) ws) = Some l').
      { clear - IH R W3 F. revert cs ws W3 F. induction l as [|[name t] l IHl]; intros cs ws W3 F; destruct cs as [|c cs]; try contradiction.
        - inversion F; subst. exists []. split; [constructor|reflexivity].
        - destruct W3 as [W3 W4]. cbn [flat_map] in F. apply Forall2_app_inv_l in F. destruct F as (w1 & w2 & F1 & F2 & ->).
          destruct (class_found t name c w1 (IH t) W3 F1) as (v & r & -> & X & Y). destruct (IHl cs w2 W4 F2) as (l' & X' & Y').
          exists ((name, r) :: l'). split; [constructor; [split; [reflexivity|exact X]|exact X']|]. intros n H. cbn [app map SpecNav.all_of fst snd].
          rewrite Y by (etransitivity; [apply Nat.le_max_l|exact H]). cbn [option_map]. rewrite Y' by (etransitivity; [apply Nat.le_max_r|exact H]). reflexivity. }
      destruct Z as (l' & Z1 & Z2). exists (DescriptorTree o (Some l')). split; [constructor; assumption|].
      intros [|n] H; [inversion H|]. cbn [tree_depth] in H. apply le_S_n in H. cbn [read_descriptor_tree]. rewrite X. cbn [bind object_dict].
      unfold optional at 1. rewrite L. cbn [object_dict bind]. rewrite (Z2 n H). reflexivity.
    - exists (DescriptorTree o None). split; [constructor; assumption|]. dcall W2 (fun cs => is_dict (flat_map ov_doc cs)). cbn [option_map entry_or_none] in W2.
      intros [|n] H; [inversion H|]. cbn [read_descriptor_tree]. rewrite X. cbn [bind object_dict]. unfold optional at 1. rewrite (dict_lookup_none _ _ _ D W2). reflexivity.
  Qed.
  (** The descriptor of a font. *)
  Lemma its_tree xs d (given : option Z -> Prop) t : is_dict xs (VDict d) -> part_given given (descriptor_object decode ops) t ->
    (forall c, given c -> entries_for (lit "FontDescriptor") xs = entry_or_none (lit "FontDescriptor") (option_map is_ref c)) -> exists r m, optionally tree_is t r /\
      forall n, (m <= n)%nat -> optional (lit "FontDescriptor") d (read_descriptor_tree decode resolved n) = Some r.
  Proof using R.
    intros D W G. destruct t as [t|]; cbn [part_given] in W.
    - destruct W as (id & W1 & calls & I & W2). apply G in W1. cbn [option_map entry_or_none] in W1. destruct (dict_lookup _ _ _ _ D W1) as (v & L & ->).
      destruct (tree_at t id calls I (tree_found t calls W2)) as (r & X & Y). exists (Some r), (tree_depth t). split; [exact X|]. intros n H. unfold optional. rewrite L, (Y n H). reflexivity.
    - apply G in W. cbn [option_map entry_or_none] in W. exists None, 0%nat. split; [exact Logic.I|]. intros n _. unfold optional. rewrite (dict_lookup_none _ _ _ D W). reflexivity.
  Qed.
  Lemma encoding_at x e v : encoding_object decode ops x e -> used_reads x v -> read_map_of decode resolved v = Some e.
  Proof using R.
    destruct x as [n|id], e as [n'|parts content]; cbn [encoding_object used_reads]; try contradiction.
    - intros -> ->. reflexivity.
    - intros (calls & (data & I & S) & W) ->. cbn [read_map_of]. pose proof (cmap_stream decode resolved ops R _ _ _ _ I S) as C.
      destruct (found resolved ops R _ _ I) as (i & E & vs & -> & D). rewrite E.
      pose proof (cmap_parts_found calls parts (VDict vs) W D) as X.
      change (read_cmap_parts decode resolved (VDict ((lit "Length", VInt (blen data)) :: vs))) with (read_cmap_parts decode resolved (VDict vs)).
      rewrite X. cbn [bind]. rewrite C. reflexivity.
  Qed.
  Lemma face_found id f : face_written decode ops id f -> exists r m, face_is f r /\ forall n, (m <= n)%nat -> read_face decode resolved n (VRef id 0) = Some r.
  Proof using R.
    destruct f as [own d|own d|base e own d]; cbn [face_written].
    - intros (calls & I & W1 & W2 & W3). apply (own_type Type1Font_head Type1Font_doc) in W1; [|each_call].
      destruct (found resolved ops R _ _ I) as (i & E & v & -> & D). pose proof (simple_parts_found calls own v W2 D) as X. destruct (dict_is _ _ D) as [dd ->].
      destruct (its_tree _ dd _ d D W3) as (r & m & Y1 & Y2); [intros c H; entries H Type1Font_head Type1Font_doc is_ref; exact H|].
      exists (Face1 own r), m. split; [split; [reflexivity|exact Y1]|]. intros n H. unfold read_face. cbn [object_dict]. rewrite E. cbn [bind].
      unfold required. destruct (dict_lookup _ _ _ _ D W1) as (v & L & ->). rewrite L. cbn [bind read_name].
      change (bytes_eqb (lit "Type1") (lit "Type0")) with false. change (bytes_eqb (lit "Type1") (lit "Type3")) with false. cbv iota.
      rewrite (Y2 n H). cbn [bind]. unfold read_simple_parts in *. cbn [object_dict] in *. rewrite E. rewrite X. reflexivity.
    - intros (calls & I & W1 & W2 & W3). apply (own_type Type3Font_head Type3Font_doc) in W1; [|each_call].
      destruct (found resolved ops R _ _ I) as (i & E & v & -> & D). destruct (drawn_parts_found calls own v W2 D) as (o & X & X'). destruct (dict_is _ _ D) as [dd ->].
      destruct (its_tree _ dd _ d D W3) as (r & m & Y1 & Y2); [intros c H; entries H Type3Font_head Type3Font_doc is_ref; exact H|].
      exists (Face3 o r), m. split; [split; [exact X'|exact Y1]|]. intros n H. unfold read_face. cbn [object_dict]. rewrite E. cbn [bind].
      unfold required. destruct (dict_lookup _ _ _ _ D W1) as (v & L & ->). rewrite L. cbn [bind read_name].
      change (bytes_eqb (lit "Type3") (lit "Type0")) with false. change (bytes_eqb (lit "Type3") (lit "Type3")) with true. cbv iota.
      rewrite (Y2 n H). cbn [bind]. unfold read_drawn_parts in *. cbn [object_dict] in *. rewrite E. rewrite X. reflexivity.
    - intros (calls & cid & ccalls & I & W1 & W2 & W3 & W4 & I' & W5 & W6). apply (own_type Type0Font_head Type0Font_doc) in W1; [|each_call].
      entries W2 Type0Font_head Type0Font_doc is_name. entries W4 Type0Font_head Type0Font_doc (fun id => is_array [is_ref id]).
      destruct (found resolved ops R _ _ I) as (i & E & v & -> & D). destruct (dict_is _ _ D) as [dd ->].
      destruct (found resolved ops R _ _ I') as (i & E' & v & -> & D'). pose proof (cid_parts_found ccalls own v W5 D') as X. destruct (dict_is _ _ D') as [dc ->].
      destruct (its_tree _ dc _ d D' W6) as (r & m & Y1 & Y2); [intros c H; entries H CidFont_head CidFont_doc is_ref; exact H|].
      exists (Face0 base e own r), m. split; [repeat (split; [reflexivity|]); exact Y1|]. intros n H. unfold read_face. cbn [object_dict]. rewrite E. cbn [bind].
      unfold required. destruct (dict_lookup _ _ _ _ D W1) as (v & L & ->). rewrite L. cbn [bind read_name].
      change (bytes_eqb (lit "Type0") (lit "Type0")) with true. cbv iota. rewrite (same_found (lit "BaseFont") is_name _ _ _ base D W2 name_found). cbn [bind].
      rewrite (part_same (lit "Encoding") used_reads _ (encoding_object decode ops) _ _ dd e D) with (2 := W3);
        [|intros c Hc; entries Hc Type0Font_head Type0Font_doc used_reads; exact Hc|exact encoding_at]. cbn [bind].
      destruct (dict_lookup _ _ _ _ D W4) as (v & L' & vs & -> & F). rewrite L'. cbn [bind].
      inversion F as [|? v ? vs' Q F']; subst. inversion F'; subst. unfold is_ref in Q. subst v.
      assert (X' : read_cid_parts resolved (VRef cid 0) = Some own) by (unfold read_cid_parts in *; cbn [object_dict] in *; rewrite E'; exact X).
      rewrite X'. cbn [bind object_dict]. rewrite E'. cbn [bind]. rewrite (Y2 n H). reflexivity.
  Qed.
  Lemma page_faces_found page rv l : Resources_reads (pa_resources page) rv -> page_faces_written decode ops page l ->
    exists rs m, Forall2 page_face_is l rs /\ forall n, (m <= n)%nat -> read_page_faces decode resolved n rv = Some rs.
  Proof using R.
    intros P [W F]. destruct (dict_is _ _ P) as [r ->]. unfold read_page_faces. cbn [object_dict bind]. destruct W as [[-> W]|W]; apply fonts_entry in W.
    - rewrite (dict_lookup_none _ _ _ P W). exists [], 0%nat. split; [constructor|reflexivity].
    - destruct (dict_lookup _ _ _ _ P W) as (w & L2 & P2). rewrite L2. unfold as_references in P2. rewrite map_map in P2. cbn [fst snd] in P2.
      inversion P2 as [| | | | | | | | | | | |? ws M]; subst. cbn [object_dict bind]. clear - R F M.
      revert ws M. induction F as [|[n [id a]] l F1 F IH]; intros ws M; inversion M as [|? [k v] ? ws' [A B] M']; subst; [exists [], 0%nat; split; [constructor|reflexivity]|].
      cbn [fst snd] in *. subst k. inversion B; subst. destruct (face_found _ _ F1) as (r & m1 & X & E). destruct (IH ws' M') as (rs & m2 & Xs & Es).
      exists ((n, r) :: rs), (Nat.max m1 m2). split; [constructor; [split; [reflexivity|exact X]|exact Xs]|]. intros k H. cbn [map SpecNav.all_of fst snd].
      rewrite E by (etransitivity; [apply Nat.le_max_l|exact H]). cbn [option_map]. rewrite Es by (etransitivity; [apply Nat.le_max_r|exact H]). reflexivity.
  Qed.
End Walk.

(** A reader that starts from the trailer finds for every page its fonts with all the details asked for. *)
Theorem C90_fonts : forall decode ops cat file calls tree fonts,
  finished_document decode ops cat file -> In (DocCatalog cat calls) ops ->
  views_written decode ops calls tree ->
  Forall2 (page_faces_written decode ops) (vt_pages [] tree) fonts ->
  exists read depth, Forall2 (Forall2 page_face_is) fonts read /\ forall n, (depth <= n)%nat -> read_faces decode n file = Some read.
Proof.
  intros decode ops cat file calls tree fonts D I W M. destruct (document_facts _ _ _ _ D) as [X _].
  destruct (views_found _ _ _ _ _ _ D I W) as (vs & F & P).
  assert (Y : exists read m, Forall2 (Forall2 page_face_is) fonts read /\ forall n, (m <= n)%nat ->
    SpecNav.all_of (map (fun p => read_page_faces decode (resolve decode file) n (snd (fst p))) vs) = Some read).
  { clear - M F X. revert fonts M. induction F as [|p v ps vs (H1 & H2 & H3) F IH]; intros fonts M; inversion M as [|? l ? ls M1 M']; subst.
    - exists [], 0%nat. split; [constructor|reflexivity].
    - destruct (IH ls M') as (read & m & Y1 & Y2). destruct (page_faces_found decode _ ops X _ _ _ H2 M1) as (rs & m' & Z & E).
      exists (rs :: read), (Nat.max m' m). split; [constructor; assumption|]. intros n H. cbn [map SpecNav.all_of].
      rewrite E by (etransitivity; [apply Nat.le_max_l|exact H]). rewrite Y2 by (etransitivity; [apply Nat.le_max_r|exact H]). reflexivity. }
  destruct Y as (read & m & Y1 & Y2). exists read, (Nat.max (vt_depth tree) m). split; [exact Y1|]. intros n H. unfold read_faces.
  rewrite (P n) by (etransitivity; [apply Nat.le_max_l|exact H]). cbn [bind]. apply Y2. etransitivity; [apply Nat.le_max_r|exact H].
Qed.

(** ** A concrete case: a composite font with a CMap and a descriptor with two classes of glyphs, a Type 3 font, a Type 1 font. *)
Definition face_number (e : Z) : f32 := FFin false 8388608 (e - 23).
Definition face_info : ModelCmap.system_info := ModelCmap.mkSystemInfo (lit "Adobe") (lit "Japan1") 2.
Definition face_resources : Resources_calls := [Typed (Resources_fonts [(lit "A", OPrim (PRef 10)); (lit "B", OPrim (PRef 20)); (lit "C", OPrim (PRef 30))])].
Definition face_descriptor : list fd_call := [Fd_name (lit "Main"); Fd_flags [FontFlags_Serif; FontFlags_Italic]; Fd_bbox (mkRect f32_zero f32_zero (face_number 9) (face_number 8));
  Fd_weight 700; Fd_stretch FontStretch_Condensed; Fd_style x01 x02 [x00; x01; x02; x03; x04; x05; x06; x07; x08; x09]; Fd_cid_set 33; Fd_font_file2 34;
  Fd_override [Ov_cjk_class CjkClass_HKana [Fd_name (lit "Kana"); Fd_override [Ov_custom_class (lit "Odd") [Fd_stem_v (face_number 3)]]]; Ov_custom_class_ref (lit "Mine") 35]].
Definition face_sample : list doc_op := [
  DocTyped 2 (Ck_pages [Typed (Pages_kids [3]); Typed (Pages_resources face_resources)]);
  DocTyped 3 (Ck_page []);
  DocTyped 10 (Ck_type1_font [Typed (Type1Font_base_font (lit "Times-Roman"))]);
  DocTyped 20 (Ck_type3_font [Typed (Type3Font_name (lit "T")); Typed (Type3Font_bbox (mkRect f32_zero f32_zero (face_number 4) (face_number 5)));
    Typed (Type3Font_matrix ((face_number 0, f32_zero, f32_zero), (face_number 0, f32_zero, f32_zero)))]);
  DocTyped 30 (Ck_type0_font [Typed (Type0Font_base_font (lit "X")); Typed (Type0Font_encoding_cmap 36); Typed (Type0Font_descendant_font 31)]);
  DocTyped 31 (Ck_cid_font [Typed (CidFont_subtype CidFontType_Type2); Typed (CidFont_system_info face_info); Typed (CidFont_font_descriptor 32)]);
  DocTyped 32 (Ck_font_descriptor face_descriptor);
  DocTyped 33 (Ck_stream [xff] []);
  DocTyped 34 (Ck_stream (lit "TTF") []);
  DocTyped 35 (Ck_font_descriptor [Fd_char_set (lit "/a/b")]);
  DocTyped 36 (Ck_cmap (lit "map") [STyped (Cmap_name (lit "M")); STyped (Cmap_writing_mode ModelCmap.WVertical); STyped (Cmap_use_cmap_stream 37)]);
  DocTyped 37 (Ck_cmap (lit "base") []);
  DocCatalog 1 [Typed (Catalog_pages 2)]].
Definition face_main {N} (box : list N) : descriptor_parts N :=
  mkDescriptorParts (Some (lit "Main")) None (Some FontStretch_Condensed) (Some 700) (Some [2; 7]) (Some box) None None None None None None None None None None None
    None (Some (lit "TTF")) None None (Some [xff]) (Some [x01; x02; x00; x01; x02; x03; x04; x05; x06; x07; x08; x09]).
Definition face_kana {N} : descriptor_parts N := mkDescriptorParts (Some (lit "Kana")) None None None None None None None None None None None None None None None None None None None None None None.
Definition face_odd {N} (w : N) : descriptor_parts N := mkDescriptorParts None None None None None None None None None None None None (Some w) None None None None None None None None None None.
Definition face_mine {N} : descriptor_parts N := mkDescriptorParts None None None None None None None None None None None None None None None None None None None None (Some (lit "/a/b")) None None.
Definition face_list {N} (zero : N) (number : Z -> N) : list (bytes * (Z * face N)) := [
  (lit "A", (10, Face1 (mkSimpleParts None (Some (lit "Times-Roman"))) None));
  (lit "B", (20, Face3 (mkDrawnParts (Some (lit "T")) (Some [zero; zero; number 4; number 5]) (Some [number 0; zero; zero; number 0; zero; zero])) None));
  (lit "C", (30, Face0 (Some (lit "X")) (Some (MapEncoding (mkCmapParts (Some (lit "M")) None (Some ModelCmap.WVertical) (Some (TableMap (lit "base")))) (lit "map")))
    (mkCidParts (Some CidFontType_Type2) None (Some face_info))
    (Some (DescriptorTree (face_main [zero; zero; number 9; number 8])
      (Some [(lit "HKana", DescriptorTree face_kana (Some [(lit "Odd", DescriptorTree (face_odd (number 3)) None)])); (lit "Mine", DescriptorTree face_mine None)])))))].
Definition face_tree : view_tree := VtNode 2 (Some face_resources) [VtPage 3 None NoContents].
Ltac face_in := cbn [face_sample In]; tauto.
Ltac face_data := eexists; split; [reflexivity|]; eexists _, _; split; [face_in|]; exists None; split; reflexivity.
Example C90_case : views_written no_filter face_sample [Typed (Catalog_pages 2)] face_tree /\
  Forall2 (page_faces_written no_filter face_sample) (vt_pages [] face_tree) [face_list f32_zero face_number].
Proof.
  split.
  - split; [reflexivity|]. split; [eexists; split; [face_in|]; split; reflexivity|].
    split; [|exact Logic.I]. eexists; split; [face_in|]. split; reflexivity.
  - constructor; [|constructor]. split; [right; reflexivity|].
    apply Forall_cons; [|apply Forall_cons; [|apply Forall_cons; [|apply Forall_nil]]]; cbn [fst snd face_written].
    + eexists. split; [face_in|]. split; [reflexivity|]. split; [split; reflexivity|reflexivity].
    + eexists. split; [face_in|]. split; [reflexivity|]. split; [|reflexivity]. split; [reflexivity|].
      split; (eexists; split; [reflexivity|reflexivity]).
    + eexists _, _, _. split; [face_in|]. split; [reflexivity|]. split; [reflexivity|].
      split; [exists (inr 36); split; [reflexivity|]; eexists; split; [eexists; split; [face_in|exists None; split; reflexivity]|]|].
      { split; [reflexivity|]. split; [reflexivity|]. split; [reflexivity|]. exists (inr 37). split; [reflexivity|]. eexists _, _. split; [face_in|exists None; split; reflexivity]. }
      split; [reflexivity|]. split; [face_in|]. split; [repeat split|].
      eexists. split; [reflexivity|]. eexists. split; [face_in|]. cbn [descriptor_tree_written]. split.
      { unfold face_descriptor, descriptor_parts_written. repeat (split; [first [reflexivity|face_data|eexists; split; [reflexivity|first [reflexivity|split; reflexivity]]]|]).
        eexists. split; [reflexivity|split; reflexivity]. }
      eexists. split; [reflexivity|]. split; [|split; [|exact Logic.I]]; cbn [class_given].
      * split; [reflexivity|]. split; [repeat split|]. eexists. split; [reflexivity|]. split; [|exact Logic.I]. split; [reflexivity|]. split; [repeat split|reflexivity].
      * split; [reflexivity|]. eexists. split; [face_in|]. split; [repeat split|reflexivity].
Qed.
(** And the file is really read so. *)
Example C90_file : exists file, finished_document no_filter face_sample 1 file /\
  read_faces no_filter 4 file = Some [map (fun f => (fst f, snd (snd f))) (face_list (VInt 0) (fun e => VInt (2 ^ e)))].
Proof.
  assert (X : match doc_run face_sample (pdf_with_settings true) with
              | Some p => match finish p with Some f => (blen f <=? 10 ^ 10, read_faces no_filter 4 f) | None => (false, None) end
              | None => (false, None) end = (true, Some [map (fun f => (fst f, snd (snd f))) (face_list (VInt 0) (fun e => VInt (2 ^ e)))])) by (vm_compute; reflexivity).
  destruct (doc_run face_sample (pdf_with_settings true)) as [p|] eqn:R; [|discriminate].
  destruct (finish p) as [file|] eqn:F; [|discriminate]. exists file.
  split; [apply (finished_table _ _ _ _ true p); [|exact R|exact F| |apply Z.leb_le; exact (f_equal fst X)|reflexivity]|].
  - repeat (apply Forall_cons; [cbn [doc_op_ok op_typed]; repeat split|]); apply Forall_nil.
  - unfold ids_below; repeat constructor.
  - exact (f_equal snd X).
Qed.

Print Assumptions C90_fonts.
