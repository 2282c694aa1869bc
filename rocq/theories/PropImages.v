(** C86: images and forms with all that belongs to them, from the trailer on. *)

From Coq Require Import ZArith List Bool Lia.
From Verif Require SpecInfo ModelCmap ModelContent SpecContent SpecForm PropForm SpecAppear PropAppear.
From Verif Require Import Bytes ModelFloat ModelBuf ModelObject ModelChunk ModelColor ModelSmall ModelPdf ModelTw ModelEnums ModelRoles ModelTwArgs
  ModelTwFiles ModelTwGraphics ModelTwAnnot ModelTwForms ModelTwAttr ModelTwXObj ModelTwFonts ModelTwDoc ModelFontDesc ModelDoc
  SpecLex SpecObj SpecText SpecMeans SpecRenum SpecChunk SpecFile SpecPdf SpecTyped SpecColor SpecSmall SpecTw SpecEnums SpecRoles SpecTwArgs
  SpecTwFiles SpecTwGraphics SpecTwAnnot SpecTwForms SpecTwAttr SpecTwXObj SpecTwFonts SpecTwDoc SpecFontDesc SpecDoc SpecPages SpecExtract SpecNav SpecViews SpecPaint SpecFunctions SpecActions SpecPresent SpecColors SpecImages
  ProofBasic ProofTree ProofTyped ProofTw ProofTwDoc PropDoc PropPdf2 PropPages PropExtract PropNav PropTagged PropInfo PropPaint PropFunctions PropColors PropActions PropPresent.
Import ListNotations.
Local Open Scope Z_scope.

Lemma whole_found z v : is_int z v -> read_int v = Some z.
Proof. intros ->. reflexivity. Qed.
Lemma name_found n v : is_name n v -> read_name v = Some n.
Proof. intros ->. reflexivity. Qed.
Lemma crypt_found (u : unit) v : is_name (lit "CryptFilterDecodeParms") v -> is_it (lit "CryptFilterDecodeParms") v = Some u.
Proof. intros ->. destruct u. reflexivity. Qed.
Lemma ids_found l v : is_refs l v -> read_list read_id v = Some l.
Proof. intro H. rewrite <- (map_id l). exact (list_found is_ref read_id (fun x => x) id_found l v H). Qed.
Lemma part_finds {C A B} k (Q : C -> val -> Prop) (f : nat -> val -> option B) (P : C -> A -> Prop) (Rel : A -> B -> Prop) (given : option C -> Prop) xs d (a : option A) :
  is_dict xs (VDict d) -> (forall c, given c -> entries_for k xs = entry_or_none k (option_map Q c)) -> part_given given P a ->
  (forall c a' v, P c a' -> Q c v -> finds Rel a' (fun n => f n v)) -> finds (optionally Rel) a (fun n => optional k d (f n)).
Proof.
  intros D E W H. destruct a as [a|]; cbn [part_given] in W.
  - destruct W as (c & G & W). specialize (E _ G). cbn [option_map entry_or_none] in E. unfold optional.
    destruct (dict_lookup _ _ _ _ D E) as (v & L & V). destruct (H c a v W V) as (b & n & X & Y). exists (Some b), n. split; [exact X|]. intros m M. rewrite L, (Y m M). reflexivity.
  - specialize (E _ W). cbn [option_map entry_or_none] in E. unfold optional. exists None, 0%nat. split; [exact Logic.I|]. intros m _. rewrite (dict_lookup_none _ _ _ D E). reflexivity.
Qed.

Section Walk.
  Variables (decode : option val -> bytes -> option bytes) (resolved : Z -> option indirect) (ops : list doc_op).
  Hypothesis R : Forall (fun op => doc_op_reads op resolved) ops.

  Lemma plain_stream_found id content v : stream_written decode ops id content -> is_ref id v -> its_content decode resolved v = Some content.
  Proof using R.
    intros (data & calls & H1 & H2) ->. unfold its_content. cbn [read_id bind]. exact (stream_found decode resolved ops R _ _ _ _ H1 H2).
  Qed.
  Lemma parms_found calls p v : parms_written decode ops calls p -> DecodeParms_reads calls v -> read_parms decode resolved v = Some p.
  Proof using R.
    intros (H1 & H2 & H3 & H4 & H5 & H6 & H7 & H8 & H9 & H10 & H11 & H12 & H13 & H14 & H15 & H16) Q. destruct (dict_is _ _ Q) as [d ->].
    destruct p as [p1 p2 p3 p4 p5 p6 p7 p8 p9 p10 p11 p12 p13 p14 p15 p16].
    cbn [fp_predictor fp_colors fp_bits fp_columns fp_early fp_k fp_eol fp_align fp_rows fp_eob fp_black fp_damaged fp_globals fp_transform fp_type fp_name] in *.
    entries H1 DecodeParms_head DecodeParms_doc is_Predictor.
    entries H2 DecodeParms_head DecodeParms_doc is_int.
    entries H3 DecodeParms_head DecodeParms_doc is_int.
    entries H4 DecodeParms_head DecodeParms_doc is_int.
    entries H5 DecodeParms_head DecodeParms_doc is_int.
    entries H6 DecodeParms_head DecodeParms_doc is_int.
    entries H7 DecodeParms_head DecodeParms_doc is_bool.
    entries H8 DecodeParms_head DecodeParms_doc is_bool.
    entries H9 DecodeParms_head DecodeParms_doc is_int.
    entries H10 DecodeParms_head DecodeParms_doc is_bool.
    entries H11 DecodeParms_head DecodeParms_doc is_bool.
    entries H12 DecodeParms_head DecodeParms_doc is_int.
    entries H14 DecodeParms_head DecodeParms_doc is_int.
    entries H15 DecodeParms_head DecodeParms_doc (fun _ : unit => is_name (lit "CryptFilterDecodeParms")).
    entries H16 DecodeParms_head DecodeParms_doc is_name.
    unfold read_parms. cbn [object_dict bind]. cbv zeta.
    rewrite (same_found (lit "Predictor") is_Predictor _ _ _ p1 Q H1 (numbered_found _)). cbn [bind].
    rewrite (same_found (lit "Colors") is_int _ _ _ p2 Q H2 whole_found). cbn [bind].
    rewrite (same_found (lit "BitsPerComponent") is_int _ _ _ p3 Q H3 whole_found). cbn [bind].
    rewrite (same_found (lit "Columns") is_int _ _ _ p4 Q H4 whole_found). cbn [bind].
    rewrite (same_found (lit "EarlyChange") is_int _ _ _ p5 Q H5 whole_found). cbn [bind].
    rewrite (same_found (lit "K") is_int _ _ _ p6 Q H6 whole_found). cbn [bind].
    rewrite (same_found (lit "EndOfLine") is_bool _ _ _ p7 Q H7 bool_found). cbn [bind].
    rewrite (same_found (lit "EncodedByteAlign") is_bool _ _ _ p8 Q H8 bool_found). cbn [bind].
    rewrite (same_found (lit "Rows") is_int _ _ _ p9 Q H9 whole_found). cbn [bind].
    rewrite (same_found (lit "EndOfBlock") is_bool _ _ _ p10 Q H10 bool_found). cbn [bind].
    rewrite (same_found (lit "BlackIs1") is_bool _ _ _ p11 Q H11 bool_found). cbn [bind].
    rewrite (same_found (lit "DamagedRowsBeforeError") is_int _ _ _ p12 Q H12 whole_found). cbn [bind].
    rewrite (part_same (lit "JBIG2Globals") is_ref _ (stream_written decode ops) _ _ d p13 Q) with (2 := H13);
      [|intros c H; entries H DecodeParms_head DecodeParms_doc is_ref; exact H|exact plain_stream_found]. cbn [bind].
    rewrite (same_found (lit "ColorTransform") is_int _ _ _ p14 Q H14 whole_found). cbn [bind].
    rewrite (same_found (lit "Type") (fun _ : unit => is_name (lit "CryptFilterDecodeParms")) _ _ _ p15 Q H15 crypt_found). cbn [bind].
    rewrite (same_found (lit "Name") is_name _ _ _ p16 Q H16 name_found). cbn [bind].
    reflexivity.
  Qed.
  Lemma space_of_found c s v : space_given decode ops c s -> match c with inl c => cs_reads c v | inr n => is_name n v end ->
    finds space_or_name_is s (fun n => read_color_space decode resolved n v).
  Proof using R.
    intros G V. destruct c as [c|n], s as [s|m]; cbn [space_given] in G; try contradiction.
    - destruct (space_found decode resolved ops R s c v G V) as (r & k & X & Y). exists r, k. split; [exact X|exact Y].
    - subst m. unfold is_name in V. subst v. exists (PlainSpace (VName n)), 1%nat. split; [reflexivity|]. intros [|k] L; [inversion L|]. reflexivity.
  Qed.
  Lemma typed_found t head xs id data vs : resolved id = Some (IStream id 0 ((lit "Length", VInt (blen data)) :: vs) data) -> is_dict xs (VDict vs) ->
    entries_for (lit "Subtype") xs = [(lit "Subtype", is_name head)] -> object_of_type resolved t id =
    (if bytes_eqb head t then Some ((lit "Length", VInt (blen data)) :: vs) else None).
  Proof using Type.
    intros E D K. unfold object_of_type. rewrite E. unfold required.
    change (lookup (lit "Subtype") ((lit "Length", VInt (blen data)) :: vs)) with (lookup (lit "Subtype") vs).
    destruct (dict_lookup _ _ _ _ D K) as (v & L & P). rewrite L. unfold is_name in P. subst v. reflexivity.
  Qed.

  Lemma pixels_found id data calls p : In (DocTyped id (Ck_image_xobject data calls)) ops -> pixels_given decode ops data calls p ->
    finds pixels_are p (fun n => read_pixels decode resolved n id).
  Proof using R.
    intros I (H0 & H1 & H2 & H3 & H4 & H5 & H6 & H7 & H8 & H9 & H10 & H11 & H12 & H13 & H14 & H15 & H16).
    destruct p as [p1 p2 p3 p4 p5 p6 p7 p8 p9 p10 p11 p12 p13 p14 p15 p16].
    cbn [px_width px_height px_space px_bits px_intent px_stencil px_decode px_interpolate px_alternates px_in_data px_parent px_matte px_metadata px_files px_parms px_content] in *.
    apply (subtype_entries ImageXObject_head Stream_doc ImageXObject_doc) in H0; [|each_call..].
    apply (stored_with_entries decode ImageXObject_head ImageXObject_doc) in H16; [|reflexivity|each_call].
    sentries H1 ImageXObject_head ImageXObject_doc is_int.
    sentries H2 ImageXObject_head ImageXObject_doc is_int.
    sentries H4 ImageXObject_head ImageXObject_doc is_int.
    sentries H5 ImageXObject_head ImageXObject_doc is_RenderingIntent.
    sentries H6 ImageXObject_head ImageXObject_doc is_bool.
    sentries H7 ImageXObject_head ImageXObject_doc is_reals.
    sentries H8 ImageXObject_head ImageXObject_doc is_bool.
    sentries H9 ImageXObject_head ImageXObject_doc is_refs.
    sentries H10 ImageXObject_head ImageXObject_doc is_SMaskInData.
    sentries H11 ImageXObject_head ImageXObject_doc is_int.
    sentries H12 ImageXObject_head ImageXObject_doc is_reals.
    destruct (found resolved ops R _ _ I) as (i & E & vs & -> & Q0). pose proof (typed_found (lit "Image") (lit "Image") _ _ _ _ E Q0 H0) as T.
    pose proof (stream_with_found decode resolved _ _ _ _ _ E Q0 H16) as K. pose proof (length_before _ _ (blen data) Q0) as Q.
    set (d := (lit "Length", VInt (blen data)) :: vs) in *.
    assert (Y : finds (optionally space_or_name_is) p3 (fun n => optional (lit "ColorSpace") d (read_color_space decode resolved n))).
    { apply (part_finds (lit "ColorSpace") (fun c v => match c with inl c => cs_reads c v | inr n => is_name n v end) _ (space_given decode ops) _ _ _ d p3 Q) with (2 := H3);
        [|exact space_of_found]. intros c H. sentries H ImageXObject_head ImageXObject_doc (fun (c : cs + bytes) v => match c with inl c => cs_reads c v | inr n => is_name n v end). exact H. }
    destruct Y as (r3 & n3 & X3 & E3). destruct (optional_numbers _ _ Q (lit "Decode") _ H7) as (r7 & X7 & E7). destruct (optional_numbers _ _ Q (lit "Matte") _ H12) as (r12 & X12 & E12).
    exists (mkPixels p1 p2 r3 p4 p5 p6 r7 p8 p9 p10 p11 r12 p13 p14 p15 p16), n3. split; [repeat (split; [try reflexivity; assumption|]); reflexivity|].
    intros n L. unfold read_pixels. change (bytes_eqb (lit "Image") (lit "Image")) with true in T. rewrite T. cbn [bind]. cbv zeta.
    rewrite (same_found (lit "Width") is_int _ _ _ p1 Q H1 whole_found). cbn [bind].
    rewrite (same_found (lit "Height") is_int _ _ _ p2 Q H2 whole_found). cbn [bind].
    rewrite (E3 n L). cbn [bind].
    rewrite (same_found (lit "BitsPerComponent") is_int _ _ _ p4 Q H4 whole_found). cbn [bind].
    rewrite (same_found (lit "Intent") is_RenderingIntent _ _ _ p5 Q H5 (enum_found _)). cbn [bind].
    rewrite (same_found (lit "ImageMask") is_bool _ _ _ p6 Q H6 bool_found). cbn [bind].
    rewrite E7. cbn [bind].
    rewrite (same_found (lit "Interpolate") is_bool _ _ _ p8 Q H8 bool_found). cbn [bind].
    rewrite (same_found (lit "Alternates") is_refs _ _ _ p9 Q H9 ids_found). cbn [bind].
    rewrite (same_found (lit "SMaskInData") is_SMaskInData _ _ _ p10 Q H10 (numbered_found _)). cbn [bind].
    rewrite (same_found (lit "StructParent") is_int _ _ _ p11 Q H11 whole_found). cbn [bind].
    rewrite E12. cbn [bind].
    rewrite (part_same (lit "Metadata") is_ref _ (metadata_content decode ops) _ _ d p13 Q) with (2 := H13);
      [|intros c H; sentries H ImageXObject_head ImageXObject_doc is_ref; exact H|exact (metadata_content_found decode resolved ops R)]. cbn [bind].
    rewrite (part_same (lit "AF") (is_array_of FileSpec_reads) _ (Forall2 (file_written decode ops)) _ _ d p14 Q) with (2 := H14);
      [|intros c H; sentries H ImageXObject_head ImageXObject_doc (is_array_of FileSpec_reads); exact H|intros c a v; apply all_found; exact (file_found decode resolved ops R)]. cbn [bind].
    rewrite (part_same (lit "DecodeParms") DecodeParms_reads _ (parms_written decode ops) _ _ d p15 Q) with (2 := H15);
      [|intros c H; sentries H ImageXObject_head ImageXObject_doc DecodeParms_reads; exact H|exact parms_found]. cbn [bind].
    rewrite K. reflexivity.
  Qed.
  Lemma mask_image_found id p v : mask_image_written decode ops id p -> is_ref id v -> finds pixels_are p (fun n => bind (read_id v) (read_pixels decode resolved n)).
  Proof using R. intros (data & calls & I & G) ->. exact (pixels_found id data calls p I G). Qed.
  Lemma mask_of_found m x v : mask_of decode ops m x -> match m with inl l => is_array_of is_int l v | inr id => is_ref id v end ->
    finds masked_is x (fun n => match v with VArr _ => option_map inl (read_list read_int v) | _ => option_map inr (bind (read_id v) (read_pixels decode resolved n)) end).
  Proof using R.
    intros G V. destruct m as [l|id], x as [l'|p]; cbn [mask_of] in G; try contradiction.
    - subst l'. pose proof (list_found is_int read_int (fun x => x) whole_found l v V) as X. rewrite map_id in X. destruct V as (vs & -> & _). exists (inl l), 0%nat. split; [reflexivity|].
      intros n _. rewrite X. reflexivity.
    - destruct (mask_image_found id p v G V) as (r & k & X & Y). unfold is_ref in V. subst v. exists (inr r), k. split; [exact X|]. intros n L. rewrite (Y n L). reflexivity.
  Qed.
  Lemma image_found id i : image_written decode ops id i -> finds image_is i (fun n => read_image_of decode resolved n id).
  Proof using R.
    intros (data & calls & I & G & H1 & H2). pose proof (pixels_found id data calls _ I G) as (rp & np & Xp & Ep). destruct G as (H0 & _).
    apply (subtype_entries ImageXObject_head Stream_doc ImageXObject_doc) in H0; [|each_call..].
    destruct (found resolved ops R _ _ I) as (j & E & vs & -> & Q0). pose proof (typed_found (lit "Image") (lit "Image") _ _ _ _ E Q0 H0) as T.
    pose proof (length_before _ _ (blen data) Q0) as Q. set (d := (lit "Length", VInt (blen data)) :: vs) in *. destruct i as [ip im is]. cbn [im_pixels im_mask im_soft] in *.
    assert (Y1 : finds (optionally masked_is) im (fun n => optional (lit "Mask") d (fun v =>
      match v with VArr _ => option_map inl (read_list read_int v) | _ => option_map inr (bind (read_id v) (read_pixels decode resolved n)) end))).
    { apply (part_finds (lit "Mask") (fun m v => match m with inl l => is_array_of is_int l v | inr id => is_ref id v end) _ (mask_of decode ops) _ _ _ d im Q) with (2 := H1);
        [|exact mask_of_found]. intros c H. sentries H ImageXObject_head ImageXObject_doc (fun (m : list Z + Z) v => match m with inl l => is_array_of is_int l v | inr id => is_ref id v end). exact H. }
    assert (Y2 : finds (optionally pixels_are) is (fun n => optional (lit "SMask") d (fun v => bind (read_id v) (read_pixels decode resolved n)))).
    { apply (part_finds (lit "SMask") is_ref _ (mask_image_written decode ops) _ _ _ d is Q) with (2 := H2); [|exact mask_image_found].
      intros c H. sentries H ImageXObject_head ImageXObject_doc is_ref. exact H. }
    destruct Y1 as (r1 & n1 & X1 & E1), Y2 as (r2 & n2 & X2 & E2). exists (mkImage rp r1 r2), (np + n1 + n2)%nat. split; [split; [exact Xp|split; assumption]|].
    intros n L. unfold read_image_of. change (bytes_eqb (lit "Image") (lit "Image")) with true in T. rewrite T. cbn [bind]. rewrite Ep by lia. cbn [bind]. rewrite E1 by lia. cbn [bind].
    rewrite E2 by lia. reflexivity.
  Qed.
  Lemma reference_found calls r v : reference_written decode ops calls r -> Reference_reads calls v -> read_reference decode resolved v = Some r.
  Proof using R.
    intros (H1 & H2 & H3) Q. destruct (dict_is _ _ Q) as [d ->]. destruct r as [f page id]. cbn [rf_file rf_page rf_id] in *.
    entries H2 Reference_head Reference_doc (fun (p : Z + textlike) v => match p with inl n => is_int n v | inr t => is_textlike t v end).
    unfold read_reference. cbn [object_dict bind].
    rewrite (part_same (lit "F") FileSpec_reads _ (file_written decode ops) _ _ d f Q) with (2 := H1);
      [|intros c H; entries H Reference_head Reference_doc FileSpec_reads; exact H|exact (file_found decode resolved ops R)]. cbn [bind].
    rewrite (same_found (lit "Page") (fun (p : Z + list Z) v => match p with inl n => is_int n v | inr t => is_textlike (TextPlain t) v end) _ _ d page Q);
      [|etransitivity; [exact H2|]; destruct page as [[]|]; reflexivity|]. 2:{ intros [n|t] v V; [unfold is_int in V; subst v; reflexivity|]. destruct V as (s & -> & V). cbn [read_textstring]. rewrite V. reflexivity. }
    cbn [bind].
    rewrite (part_same (lit "ID") (fun i : bytes * bytes => is_array_of is_str [fst i; snd i]) _ (fun i l => l = [fst i; snd i]) _ _ d id Q) with (2 := H3);
      [reflexivity|intros c H; entries H Reference_head Reference_doc (fun i : bytes * bytes => is_array_of is_str [fst i; snd i]); exact H|].
    intros i l v -> V. pose proof (list_found is_str read_string (fun x => x) str_found _ v V) as X. rewrite map_id in X. exact X.
  Qed.
  Lemma box_found k xs d (r : option rect) : is_dict xs (VDict d) -> entries_for k xs = entry_or_none k (option_map is_rect r) ->
    exists b, optional k d read_numbers = Some b /\ optionally box_is r b.
  Proof using Type.
    intros D E. unfold optional. destruct r as [r|]; cbn [option_map entry_or_none] in E.
    - destruct (dict_lookup _ _ _ _ D E) as (v & L & a & b & c & e & -> & V1 & V2 & V3 & V4). rewrite L.
      assert (V : is_reals [x1 r; y1 r; x2 r; y2 r] (VArr [a; b; c; e])) by (exists [a; b; c; e]; split; [reflexivity|repeat constructor; assumption]).
      destruct (numbers_found _ _ V) as (ws & W1 & W2). rewrite W1. exists (Some ws). split; [reflexivity|exact W2].
    - rewrite (dict_lookup_none _ _ _ D E). exists None. split; [reflexivity|exact Logic.I].
  Qed.
  Lemma form_found id data calls f : In (DocTyped id (Ck_form_xobject data calls)) ops -> form_given decode ops calls f ->
    exists d g, object_of_type resolved (lit "Form") id = Some d /\ is_dict ((lit "Length", is_int (blen data)) :: FormXObject_reads calls) (VDict d) /\
      read_form_of decode resolved d = Some g /\ form_facts f g.
  Proof using R.
    intros I (H0 & H1 & H2 & H3 & H4 & H5 & H6 & H7 & H8 & H9). destruct f as [p1 p2 p3 p4 p5 p6 p7 p8 p9].
    cbn [fm_box fm_matrix fm_group fm_parent fm_parents fm_reference fm_metadata fm_modified fm_files] in *.
    apply (subtype_entries FormXObject_head Stream_doc FormXObject_doc) in H0; [|each_call..].
    sentries H1 FormXObject_head FormXObject_doc is_rect. sentries H2 FormXObject_head FormXObject_doc (fun m => is_reals (in_order6 m)).
    sentries H4 FormXObject_head FormXObject_doc is_int. sentries H5 FormXObject_head FormXObject_doc is_int.
    destruct (found resolved ops R _ _ I) as (i & E & vs & -> & Q0). pose proof (typed_found (lit "Form") (lit "Form") _ _ _ _ E Q0 H0) as T.
    pose proof (length_before _ _ (blen data) Q0) as Q. set (d := (lit "Length", VInt (blen data)) :: vs) in *.
    destruct (box_found (lit "BBox") _ d p1 Q H1) as (r1 & E1 & X1).
    assert (Y2 : exists r, optional (lit "Matrix") d read_numbers = Some r /\ optionally matrix_is p2 r).
    { unfold optional. destruct p2 as [m|]; cbn [option_map entry_or_none] in H2.
      - destruct (dict_lookup (lit "Matrix") _ _ _ Q H2) as (v & L & P). destruct (numbers_found _ _ P) as (ws & W1 & W2). rewrite L, W1. exists (Some ws). split; [reflexivity|exact W2].
      - rewrite (dict_lookup_none (lit "Matrix") _ _ Q H2). exists None. split; [reflexivity|exact Logic.I]. }
    assert (Y3 : exists r, optional (lit "Group") d (read_group_of resolved) = Some r /\ optionally group_is p3 r).
    { apply (part_related (lit "Group") Group_reads _ group_written _ _ _ d p3 Q) with (2 := H3);
        [intros c H; sentries H FormXObject_head FormXObject_doc Group_reads; exact H|exact (group_of_found resolved)]. }
    destruct Y2 as (r2 & E2 & X2), Y3 as (r3 & E3 & X3). exists d, (mkForm r1 r2 r3 p4 p5 p6 p7 p8 p9). split; [exact T|]. split; [exact Q|].
    split; [|repeat split; assumption]. unfold read_form_of. rewrite E1. cbn [bind]. rewrite E2. cbn [bind]. rewrite E3. cbn [bind].
    rewrite (same_found (lit "StructParent") is_int _ _ d p4 Q H4 whole_found). cbn [bind]. rewrite (same_found (lit "StructParents") is_int _ _ d p5 Q H5 whole_found). cbn [bind].
    rewrite (part_same (lit "Ref") Reference_reads _ (reference_written decode ops) _ _ d p6 Q) with (2 := H6);
      [|intros c H; sentries H FormXObject_head FormXObject_doc Reference_reads; exact H|exact reference_found]. cbn [bind].
    rewrite (part_same (lit "Metadata") is_ref _ (metadata_content decode ops) _ _ d p7 Q) with (2 := H7);
      [|intros c H; sentries H FormXObject_head FormXObject_doc is_ref; exact H|exact (metadata_content_found decode resolved ops R)]. cbn [bind].
    rewrite (date_part_found _ d (lit "LastModified") _ p8 Q) with (2 := H8) by (intros c H; sentries H FormXObject_head FormXObject_doc is_date_of; exact H). cbn [bind].
    rewrite (part_same (lit "AF") (is_array_of FileSpec_reads) _ (Forall2 (file_written decode ops)) _ _ d p9 Q) with (2 := H9);
      [reflexivity|intros c H; sentries H FormXObject_head FormXObject_doc (is_array_of FileSpec_reads); exact H|].
    intros c a v. apply all_found. exact (file_found decode resolved ops R).
  Qed.
  (** All XObjects of a resource dictionary, if each of them is found. *)
  Lemma named_objects_found res rv (xs : list (bytes * (Z * object_asked))) : Resources_reads res rv -> objects_named res xs ->
    Forall (fun x => finds object_is (snd (snd x)) (fun n => read_object_at decode resolved n (VRef (fst (snd x)) 0))) xs ->
    finds objects_are xs (fun n => named_in (lit "XObject") (read_object_at decode resolved n) rv).
  Proof using Type.
    intros K W F. destruct (dict_is _ _ K) as [d ->]. unfold named_in. destruct W as [[-> W]|W].
    - entries W Resources_head Resources_doc (fun es => means (ODict es)). exists [], 0%nat. split; [constructor|]. intros n _. rewrite (dict_lookup_none _ _ _ K W). reflexivity.
    - entries W Resources_head Resources_doc (fun es => means (ODict es)). destruct (dict_lookup _ _ _ _ K W) as (v & L & P).
      unfold as_references in P. rewrite map_map in P. cbn [fst snd] in P. inversion P as [| | | | | | | | | | | |? ws M]; subst. rewrite L. clear - M F.
      revert ws M. induction F as [|[k [id o]] xs (r & n1 & X1 & E1) F IH]; intros ws M; inversion M as [|? [k' v] ? ws' [A B] M']; subst.
      + exists [], 0%nat. split; [constructor|reflexivity].
      + cbn [fst snd] in *. subst k'. inversion B; subst. destruct (IH ws' M') as (rs & n2 & X2 & E2). exists ((k, r) :: rs), (n1 + n2)%nat.
        split; [constructor; [split; [reflexivity|exact X1]|exact X2]|]. intros n N. cbn [map SpecNav.all_of fst snd]. rewrite E1 by lia. cbn [option_map]. rewrite E2 by lia. reflexivity.
  Qed.
  Lemma object_found : forall o id, object_written decode ops id o -> finds object_is o (fun n => read_object_at decode resolved n (VRef id 0)).
  Proof using R.
    fix IH 1. intros [i|f xs] id W; cbn [object_written] in W.
    - destruct (image_found id i W) as (r & k & X & Y). exists (ReadImage r), (S k). split; [constructor; exact X|]. intros [|n] L; [inversion L|]. apply le_S_n in L.
      cbn [read_object_at read_id bind].
      assert (T : object_of_type resolved (lit "Form") id = None).
      { destruct W as (data & calls & I & (H0 & _) & _). apply (subtype_entries ImageXObject_head Stream_doc ImageXObject_doc) in H0; [|each_call..].
        destruct (found resolved ops R _ _ I) as (j & E & vs & -> & Q0). exact (typed_found (lit "Form") (lit "Image") _ _ _ _ E Q0 H0). }
      rewrite T, (Y n L). reflexivity.
    - destruct W as ((data & calls & I & G & O) & W). destruct (form_found id data calls f I G) as (d & g & T & Q & E & X).
      assert (F : Forall (fun x => finds object_is (snd (snd x)) (fun n => read_object_at decode resolved n (VRef (fst (snd x)) 0))) xs).
      { clear - IH W. induction xs as [|[k [id o]] xs IHx]; [constructor|]. destruct W as [W1 W2]. constructor; [exact (IH o id W1)|exact (IHx W2)]. }
      assert (Y : finds objects_are xs (fun n => match lookup (lit "Resources") d with Some res => named_in (lit "XObject") (read_object_at decode resolved n) res | None => Some [] end)).
      { cbv zeta in O. destruct O as [[-> O]|(res & O1 & O2)].
        - sentries O FormXObject_head FormXObject_doc Resources_reads. exists [], 0%nat. split; [constructor|]. intros n _. rewrite (dict_lookup_none (lit "Resources") _ _ Q O). reflexivity.
        - sentries O1 FormXObject_head FormXObject_doc Resources_reads. destruct (dict_lookup (lit "Resources") _ _ _ Q O1) as (rv & L & P). rewrite L.
          exact (named_objects_found res rv xs P O2 F). }
      destruct Y as (l & k & Y1 & Y2). exists (ReadForm g l), (S k). split; [constructor; [exact X|exact Y1]|]. intros [|n] L; [inversion L|]. apply le_S_n in L.
      cbn [read_object_at read_id bind]. rewrite T, E. cbn [bind]. rewrite (Y2 n L). reflexivity.
  Qed.
End Walk.

(** A reader that starts from the trailer finds for every page the images and forms its contents can draw, by their names, with everything that belongs to
    them, and for forms also all that they can draw. *)
Theorem C86_objects : forall decode ops cat file calls tree asked,
  finished_document decode ops cat file -> In (DocCatalog cat calls) ops ->
  views_written decode ops calls tree ->
  Forall2 (page_objects decode ops) (vt_pages [] tree) asked ->
  exists read depth, Forall2 objects_are asked read /\ forall n, (depth <= n)%nat -> read_page_objects decode n file = Some read.
Proof.
  intros decode ops cat file calls tree asked D I W P. destruct (document_facts _ _ _ _ D) as [X _].
  destruct (views_found _ _ _ _ _ _ D I W) as (vs & F & V).
  assert (Y : exists read depth, Forall2 objects_are asked read /\ forall n, (depth <= n)%nat ->
    SpecNav.all_of (map (fun v => named_in (lit "XObject") (read_object_at decode (resolve decode file) n) (snd (fst v))) vs) = Some read).
  { clear - P F X. revert asked P. induction F as [|p v ps vs (H1 & H2 & H3) F IH]; intros asked P; inversion P as [|? a ? l [A1 A2] P']; subst.
    - exists [], 0%nat. split; [constructor|reflexivity].
    - destruct (IH _ P') as (read & depth & Q1 & Q2).
      destruct (named_objects_found decode (resolve decode file) _ _ _ H2 A1) as (r & d & Z1 & Z2).
      { eapply Forall_impl; [|exact A2]. intros x. exact (object_found decode (resolve decode file) ops X (snd (snd x)) (fst (snd x))). }
      exists (r :: read), (d + depth)%nat. split; [constructor; assumption|]. intros n Hn. cbn [map SpecNav.all_of]. rewrite Z2 by lia. rewrite Q2 by lia. reflexivity. }
  destruct Y as (read & depth & Q1 & Q2). exists read, (vt_depth tree + depth)%nat. split; [exact Q1|]. intros n Hn.
  unfold read_page_objects. rewrite V by lia. cbn [bind]. apply Q2. lia.
Qed.

(** ** A case: an image in a form, with a soft mask, in colors of a profile, and a stencil mask at the page. *)

Definition soft_calls : ImageXObject_calls := [STyped (ImageXObject_width 1); STyped (ImageXObject_height 1); STyped (ImageXObject_color_space CsDeviceGray);
  STyped (ImageXObject_matte [one]); SStream (Stream_decode_parms [Typed (DecodeParms_predictor Predictor_PngUp); Typed (DecodeParms_jbig2_globals 9); Typed (DecodeParms_early_change true)])].
Definition picture_calls : ImageXObject_calls := [STyped (ImageXObject_width 2); STyped (ImageXObject_height 1); STyped (ImageXObject_bits_per_component 8);
  STyped (ImageXObject_color_space (CsIccBased 12)); STyped (ImageXObject_s_mask 7); STyped (ImageXObject_color_mask [1; 3]); STyped (ImageXObject_interpolate true)].
Definition stencil_calls : ImageXObject_calls := [STyped (ImageXObject_image_mask true); STyped (ImageXObject_color_space_name (lit "Cs")); STyped (ImageXObject_decode [one; f32_zero])].
Definition inner_resources : Resources_calls := [Typed (Resources_x_objects [(lit "Pic", OPrim (PRef 6))])].
Definition frame_calls : FormXObject_calls := [STyped (FormXObject_bbox (mkRect f32_zero f32_zero one one)); STyped (FormXObject_group [Typed Group_transparency]);
  STyped (FormXObject_resources inner_resources); STyped (FormXObject_reference [Typed (Reference_file_spec [Typed (FileSpec_path (lit "o.pdf"))]); Typed (Reference_page_number 4)])].
Definition object_resources : Resources_calls := [Typed (Resources_x_objects [(lit "Fr", OPrim (PRef 5)); (lit "St", OPrim (PRef 8))])].
Definition object_sample : list doc_op := [
  DocTyped 3 (Ck_page [Typed (Page_contents 4)]);
  DocTyped 2 (Ck_pages [Typed (Pages_kids [3]); Typed (Pages_resources object_resources)]);
  DocTyped 4 (Ck_stream (content_of []) []);
  DocTyped 5 (Ck_form_xobject [] frame_calls);
  DocTyped 6 (Ck_image_xobject (lit "pixels") picture_calls);
  DocTyped 7 (Ck_image_xobject (lit "soft") soft_calls);
  DocTyped 8 (Ck_image_xobject (lit "stencil") stencil_calls);
  DocTyped 9 (Ck_stream (lit "globals") []);
  DocTyped 12 (Ck_icc_profile (lit "icc") [STyped (IccN 3)]);
  DocCatalog 1 [Typed (Catalog_pages 2)]].
Definition object_views : view_tree := VtNode 2 (Some object_resources) [VtPage 3 None (OneStream [])].
Definition soft_asked : pixels f32 space_or_name := mkPixels (Some 1) (Some 1) (Some (inl (AskPlain CsDeviceGray))) None None None None None None None None (Some [one]) None None
  (Some (mkFilterParms (Some Predictor_PngUp) None None None (Some 1) None None None None None None None (Some (lit "globals")) None None None)) (lit "soft").
Definition picture_asked : image f32 space_or_name :=
  mkImage (mkPixels (Some 2) (Some 1) (Some (inl (AskIcc [STyped (IccN 3)] (lit "icc")))) (Some 8) None None None (Some true) None None None None None None None (lit "pixels"))
    (Some (inl [1; 3])) (Some soft_asked).
Definition stencil_asked : image f32 space_or_name :=
  mkImage (mkPixels None None (Some (inr (lit "Cs"))) None None (Some true) (Some [one; f32_zero]) None None None None None None None None (lit "stencil")) None None.
Definition frame_asked : form rect f6 (group cs) :=
  mkForm (Some (mkRect f32_zero f32_zero one one)) None (Some (mkGroup (Some tt) None None None)) None None
    (Some (mkReference (Some (mkFile None (Some (lit "o.pdf")) None None None None None)) (Some (inl 4)) None)) None None None.
Definition objects_asked : list (bytes * (Z * object_asked)) :=
  [(lit "Fr", (5, AskForm frame_asked [(lit "Pic", (6, AskImage picture_asked))])); (lit "St", (8, AskImage stencil_asked))].
Ltac there := cbn [object_sample In]; tauto.
Ltac content := exists None; split; reflexivity.
Example C86_case : views_written no_filter object_sample [Typed (Catalog_pages 2)] object_views /\
  Forall2 (page_objects no_filter object_sample) (vt_pages [] object_views) [objects_asked].
Proof.
  split.
  - split; [reflexivity|]. split; [eexists; split; [there|split; reflexivity]|].
    split; [|exact Logic.I]. eexists; split; [there|split; [reflexivity|]]. eexists; split; [reflexivity|].
    apply content_case; [there|vm_compute; reflexivity|vm_compute; discriminate].
  - apply Forall2_cons; [|apply Forall2_nil]. split; [right; reflexivity|]. apply Forall_cons; [|apply Forall_cons; [|apply Forall_nil]]; cbn [fst snd object_written].
    + split; [|split; [|exact Logic.I]].
      * eexists; eexists. split; [there|]. split.
        -- split; [reflexivity|]. split; [reflexivity|]. split; [reflexivity|]. split; [eexists; split; [reflexivity|repeat split]|]. split; [reflexivity|]. split; [reflexivity|].
           split; [|repeat split]. eexists. split; [reflexivity|]. split; [eexists; split; [reflexivity|repeat split]|]. split; reflexivity.
        -- right. eexists. split; [reflexivity|]. right. reflexivity.
      * eexists; eexists. split; [there|]. split; [|split].
        -- do 3 (split; [reflexivity|]). split; [eexists; split; [reflexivity|]; eexists; eexists; split; [reflexivity|]; split; [there|content]|].
           do 12 (split; [reflexivity|]). content.
        -- eexists. split; reflexivity.
        -- eexists. split; [reflexivity|]. eexists; eexists. split; [there|]. do 3 (split; [reflexivity|]). split; [eexists; split; [reflexivity|]; split; [reflexivity|exact Logic.I]|].
           do 11 (split; [reflexivity|]). split; [|content]. eexists. split; [reflexivity|]. do 12 (split; [reflexivity|]). split; [|repeat split].
           eexists. split; [reflexivity|]. eexists; eexists. split; [there|content].
    + eexists; eexists. split; [there|]. split; [|split; reflexivity]. do 3 (split; [reflexivity|]). split; [eexists; split; reflexivity|]. do 12 (split; [reflexivity|]). content.
Qed.
Definition objects_seen (l : option (list (list (bytes * read_object)))) : option (bytes * bytes * bytes * bytes * list Z * bytes) :=
  match l with
  | Some [[(_, ReadForm (mkForm (Some [VInt 0; VInt 0; VInt 1; VInt 1]) None (Some (mkGroup (Some _) None None None)) None None (Some (mkReference (Some f) (Some (inl 4)) None)) None None None)
      [(name, ReadImage (mkImage (mkPixels (Some 2) (Some 1) (Some (IccSpace _ icc)) (Some 8) None None None (Some true) None None None None None None None pixels) (Some (inl mask))
        (Some (mkPixels (Some 1) (Some 1) (Some (PlainSpace (VName gray))) None None None None None None None None (Some [VInt 1]) None None (Some p) soft))))]);
      (_, ReadImage (mkImage (mkPixels None None (Some (PlainSpace (VName cs))) None None (Some true) (Some [VInt 1; VInt 0]) None None None None None None None None _) None None))]] =>
      match p with
      | mkFilterParms (Some Predictor_PngUp) None None None (Some 1) None None None None None None None (Some globals) None None None =>
          Some (name, icc, pixels, soft, mask, globals)
      | _ => None
      end
  | _ => None
  end.
Example C86_file : exists file, finished_document no_filter object_sample 1 file /\
  objects_seen (read_page_objects no_filter 4 file) = Some (lit "Pic", lit "icc", lit "pixels", lit "soft", [1; 3], lit "globals").
Proof.
  assert (X : match doc_run object_sample (pdf_with_settings true) with
              | Some p => match finish p with Some file => Some (blen file <=? 10 ^ 10, objects_seen (read_page_objects no_filter 4 file)) | None => None end
              | None => None end = Some (true, Some (lit "Pic", lit "icc", lit "pixels", lit "soft", [1; 3], lit "globals"))) by (vm_compute; reflexivity).
  destruct (doc_run object_sample (pdf_with_settings true)) as [p|] eqn:R; [|discriminate].
  destruct (finish p) as [file|] eqn:F; [|discriminate]. exists file. apply some_inj in X.
  split; [apply (finished_table _ _ _ _ true p); [|exact R|exact F| |apply Z.leb_le; exact (f_equal fst X)|reflexivity]|exact (f_equal snd X)].
  - repeat (apply Forall_cons; [cbn [doc_op_ok op_typed]; repeat split|]); apply Forall_nil.
  - unfold ids_below; repeat constructor.
Qed.

Print Assumptions C86_objects.
