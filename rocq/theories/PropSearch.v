(** C102: the text of the pages together with that of the forms they draw. *)

From Coq Require Import ZArith List Bool Lia.
From Verif Require ModelCmap SpecCmap ModelContent SpecContent PropContent.
From Verif Require SpecPaint PropPaint.
From Verif Require Import Bytes ModelFloat ModelBuf ModelObject ModelChunk ModelColor ModelSmall ModelPdf ModelTw ModelEnums ModelRoles ModelTwArgs
  ModelTwFiles ModelTwGraphics ModelTwAnnot ModelTwForms ModelTwAttr ModelTwXObj ModelTwFonts ModelTwDoc ModelFontDesc ModelDoc
  SpecLex SpecObj SpecText SpecMeans SpecRenum SpecChunk SpecFile SpecPdf SpecTyped SpecColor SpecSmall SpecTw SpecEnums SpecRoles SpecTwArgs
  SpecTwFiles SpecTwGraphics SpecTwAnnot SpecTwForms SpecTwAttr SpecTwXObj SpecTwFonts SpecTwDoc SpecFontDesc SpecDoc SpecPages SpecExtract SpecNav SpecViews SpecSearch
  ProofBasic ProofTree ProofTyped ProofTw ProofTwDoc PropDoc PropPdf2 PropPages PropExtract PropNav PropTagged.
Import ListNotations.
Local Open Scope Z_scope.

(** ** Operations *)
Definition draws_text (da : option mapped_font -> bytes -> option (list Z)) (dr : nat -> option font_reading -> bytes -> option (list Z)) (depth : nat) : Prop :=
  forall m f name t, knows m f -> da m name = Some t -> forall n, (depth <= n)%nat -> dr n f name = Some t.
Definition drawing (c : ModelContent.ccall) : bool := match c with ModelContent.CXObject _ => true | ModelContent.COp k _ => bytes_eqb k (lit "Do") | _ => false end.
Lemma not_drawing c op : SpecContent.ccall_means c op -> drawing c = false -> bytes_eqb (snd op) (lit "Do") = false.
Proof.
  intros [F E] D. destruct op as [vs k]. cbn [fst snd] in F, E |- *. destruct c; cbn [drawing] in D; try discriminate;
    cbn [SpecContent.iso_operation] in E; try match type of E with context [match ?x with _ => _ end] => destruct x end; cbn [snd] in E; subst k;
    try reflexivity. exact D.
Qed.
Lemma all_text_is da dr depth fonts font : draws_text da dr depth -> (forall n, knows (named_font fonts n) (font n)) ->
  forall calls ops, Forall2 SpecContent.ccall_means calls ops -> forall st rs t, state_is st rs -> asked_all_text da fonts st calls = Some t ->
  forall n, (depth <= n)%nat -> read_all_text (dr n) font rs ops = Some t.
Proof.
  intros D K calls ops F. induction F as [|c op calls ops M F IH]; intros st rs t S A n L; [exact A|].
  assert (Step : forall x, bind (Some x) (fun y => option_map (app (fst y)) (asked_all_text da fonts (snd y) calls)) = Some t ->
    forall rs', state_is (snd x) rs' ->
    bind (Some (fst x, rs')) (fun y => option_map (app (fst y)) (read_all_text (dr n) font (snd y) ops)) = Some t).
  { intros x A' rs' S'. cbn [bind fst snd] in *. destruct (asked_all_text da fonts (snd x) calls) as [b|] eqn:B; [|discriminate].
    rewrite (IH _ _ _ S' B n L). exact A'. }
  destruct (drawing c) eqn:Q.
  - destruct c; try discriminate Q.
    + cbn [asked_all_text drawing] in *. rewrite Q in A. discriminate A.
    + cbn [asked_all_text] in A. destruct M as [M1 M2]. destruct op as [vs k]. cbn [SpecContent.iso_operation fst snd] in M1, M2. subst k.
      inversion M1 as [|? v1 ? vs1 N1 F1]; subst. inversion F1; subst. inversion N1; subst.
      cbn [read_all_text fst snd]. change (bytes_eqb (lit "Do") (lit "Do")) with true. cbv iota.
      match type of A with context [da (fst st) ?x] => destruct (da (fst st) x) as [a|] eqn:E; [|discriminate]; rewrite (D _ _ _ _ (proj1 S) E n L) end.
      exact (Step (a, st) A rs S).
  - cbn [read_all_text]. rewrite (not_drawing _ _ M Q).
    assert (A' : exists x, asked_step fonts st c = Some x /\ bind (Some x) (fun y => option_map (app (fst y)) (asked_all_text da fonts (snd y) calls)) = Some t).
    { destruct c; cbn [drawing] in Q; try discriminate Q; cbn [asked_all_text] in A; try rewrite Q in A;
        match type of A with bind (asked_step ?f ?s ?c) _ = _ => destruct (asked_step f s c) as [after|]; [exists after; split; [reflexivity|exact A]|discriminate A] end. }
    destruct A' as ([a st'] & E & A'). destruct (step_is _ _ _ _ _ _ _ _ K S M E) as (rs' & R & S'). rewrite R. exact (Step (a, st') A' rs' S').
Qed.

(** ** XObjects *)
Fixpoint xobject_depth (x : text_xobject) : nat :=
  match x with
  | TextlessImage => 1%nat
  | TextForm _ xs _ => S ((fix deepest (l : list (bytes * (Z * text_xobject))) := match l with [] => 0%nat | (_, (_, x)) :: l => Nat.max (xobject_depth x) (deepest l) end) xs)
  end.
Fixpoint text_deepest (l : list (bytes * (Z * text_xobject))) : nat := match l with [] => 0%nat | (_, (_, x)) :: l => Nat.max (xobject_depth x) (text_deepest l) end.

Section Draw.
  Variables (decode : option val -> bytes -> option bytes) (resolved : Z -> option indirect) (ops : list doc_op).
  Hypothesis R : Forall (fun op => doc_op_reads op resolved) ops.
  Lemma reference_found res rv xs : Resources_reads res rv -> text_xobjects_named res xs -> forall name,
    xobject_reference rv name = (fix find l := match l with [] => None | (n, (id, _)) :: r => if bytes_eqb name n then Some id else find r end) xs.
  Proof using Type.
    intros K W name. destruct (dict_is _ _ K) as [d ->]. unfold xobject_reference, required. destruct W as [[-> W]|W].
    - entries W Resources_head Resources_doc (fun es => means (ODict es)). rewrite (dict_lookup_none _ _ _ K W). reflexivity.
    - entries W Resources_head Resources_doc (fun es => means (ODict es)). destruct (dict_lookup _ _ _ _ K W) as (v & L & P). rewrite L. cbn [bind].
      unfold as_references in P. rewrite map_map in P. cbn [fst snd] in P. inversion P as [| | | | | | | | | | | |? ws M]; subst. clear - M.
      revert ws M. induction xs as [|[n [id d]] xs IH]; intros ws M; inversion M as [|? [k v] ? ws' [A B] M']; subst; [reflexivity|].
      cbn [fst snd] in *. subst k. cbn [lookup]. destruct (bytes_eqb name n); [|exact (IH ws' M')]. inversion B; subst. reflexivity.
  Qed.
  Lemma xobjects_found : forall x id, text_xobject_written decode ops id x -> forall rv name m f t,
    xobject_reference rv name = Some id -> knows m f -> asked_xobject_text x m = Some t ->
    forall n, (xobject_depth x <= n)%nat -> read_xobject_text decode resolved n rv f name = Some t.
  Proof using R.
    fix IH 1. intros [|fonts xs content] id W rv name m f t N K A [|n] L; cbn [xobject_depth] in L; try (inversion L; fail).
    - destruct W as (data & calls & H1 & H2). apply (PropPaint.subtype_entries ImageXObject_head Stream_doc ImageXObject_doc) in H2; [|each_call..].
      destruct (found resolved ops R _ _ H1) as (i & E & vs & -> & D).
      cbn [read_xobject_text]. rewrite N. cbn [bind]. rewrite E. unfold required at 1.
      change (lookup (lit "Subtype") ((lit "Length", VInt (blen data)) :: vs)) with (lookup (lit "Subtype") vs).
      destruct (dict_lookup _ _ _ _ D H2) as (v & Q & P). rewrite Q. unfold is_name in P. subst v. cbn [bind read_name].
      change (bytes_eqb (lit "Image") (lit "Image")) with true. exact A.
    - destruct W as ((data & calls & res & pretty & c & H1 & H2 & H3 & H4 & H5 & H6 & H7 & H8) & W).
      apply (PropPaint.subtype_entries FormXObject_head Stream_doc FormXObject_doc) in H2; [|each_call..].
      apply (stream_called_entries _ _ _ Resources_reads FormXObject_head Stream_doc FormXObject_doc) in H3; [|reflexivity|each_call..].
      apply (PropPaint.stored_with_entries decode FormXObject_head FormXObject_doc) in H6; [|reflexivity|each_call].
      destruct (found resolved ops R _ _ H1) as (i & E & vs & -> & D).
      destruct (dict_lookup _ _ _ _ D H3) as (rv' & K2 & P2).
      destruct (PropContent.C36_finish_keeps_operations pretty content c H4 H5) as (_ & l0 & P0 & M).
      cbn [asked_xobject_text] in A. apply le_S_n in L.
      cbn [read_xobject_text]. rewrite N. cbn [bind]. rewrite (PropPaint.stream_with_found decode resolved _ _ _ _ _ E D H6). rewrite E. unfold required at 1.
      change (lookup (lit "Subtype") ((lit "Length", VInt (blen data)) :: vs)) with (lookup (lit "Subtype") vs).
      destruct (dict_lookup _ _ _ _ D H2) as (v & Q & P). rewrite Q. unfold is_name in P. subst v. cbn [bind read_name].
      change (bytes_eqb (lit "Form") (lit "Image")) with false. change (bytes_eqb (lit "Form") (lit "Form")) with true. cbv iota.
      unfold required.
      change (lookup (lit "Resources") ((lit "Length", VInt (blen data)) :: vs)) with (lookup (lit "Resources") vs).
      rewrite K2. cbn [bind]. rewrite P0. cbn [bind].
      match type of L with (?x <= _)%nat => set (depth := x) in * end.
      refine (all_text_is _ (fun n => read_xobject_text decode resolved n rv') depth fonts _ _ (page_fonts_found decode resolved ops R _ _ _ P2 H7) _ _ M (m, []) (f, []) t
        (conj K (Forall2_nil _)) A n L).
      intros m1 f1 name1 t1 K1 A1. pose proof (reference_found res rv' xs P2 H8 name1) as NF. subst depth. clear - IH R W NF K1 A1.
      revert NF A1. induction xs as [|[n1 [id1 x1]] xs IHx]; intros NF A; [discriminate|]. destruct W as [W1 W2]. intros n L.
      destruct (bytes_eqb name1 n1).
      + apply (IH x1 id1 W1 rv' name1 m1 f1 t1 NF K1 A). etransitivity; [apply Nat.le_max_l|exact L].
      + apply (IHx W2 NF A). etransitivity; [apply Nat.le_max_r|exact L].
  Qed.
  Lemma page_draws_text res rv xs : Resources_reads res rv -> text_xobjects_named res xs ->
    Forall (fun x => text_xobject_written decode ops (fst (snd x)) (snd (snd x))) xs ->
    draws_text (asked_named_text xs) (fun n => read_xobject_text decode resolved n rv) (text_deepest xs).
  Proof using R.
    intros K W F m f name t S A. pose proof (reference_found res rv xs K W name) as NF. clear K W. revert NF A.
    induction F as [|[n1 [id1 x1]] xs H F IHx]; intros NF A; [discriminate|]. cbn [text_deepest asked_named_text fst snd] in *. intros n L.
    destruct (bytes_eqb name n1).
    - apply (xobjects_found x1 id1 H rv name m f t NF S A). etransitivity; [apply Nat.le_max_l|exact L].
    - apply (IHx NF A). etransitivity; [apply Nat.le_max_r|exact L].
  Qed.
End Draw.

(** A reader that starts from the trailer extracts, page by page, exactly the text that the glyphs stand for that are shown by the page and by
    the forms it draws, at every depth, in the order in which they are drawn. *)
Theorem C102_text_in_forms : forall decode ops cat file calls tree texts,
  finished_document decode ops cat file -> In (DocCatalog cat calls) ops ->
  views_written decode ops calls tree ->
  Forall2 (page_text_is decode ops) (vt_pages [] tree) texts ->
  exists depth, forall n, (depth <= n)%nat -> read_searchable decode n file = Some texts.
Proof.
  intros decode ops cat file calls tree texts D I W P. destruct (document_facts _ _ _ _ D) as [X _].
  destruct (views_found _ _ _ _ _ _ D I W) as (vs & F & V).
  assert (Y : exists depth, forall n, (depth <= n)%nat ->
    all_of (map (fun v => let res := snd (fst v) in
      read_all_text (read_xobject_text decode (resolve decode file) n res) (resource_font decode (resolve decode file) res) (None, []) (snd v)) vs) = Some texts).
  { clear - P F X. revert texts P. induction F as [|p v ps vs (H1 & H2 & H3) F IH]; intros texts P; inversion P as [|? t ? ts (fonts & xs & M1 & M2 & M3 & M4) P']; subst.
    - exists 0%nat. reflexivity.
    - destruct (IH ts P') as (depth & Q). exists (text_deepest xs + depth)%nat. intros n Hn. cbn [map all_of]. cbv zeta.
      rewrite (all_text_is _ _ _ fonts _ (page_draws_text decode (resolve decode file) ops X _ _ _ H2 M2 M3)
        (page_fonts_found decode (resolve decode file) ops X _ _ _ H2 M1) _ _ H3 (None, []) (None, []) t (conj Logic.I (Forall2_nil _)) M4 n) by lia.
      rewrite Q by lia. reflexivity. }
  destruct Y as (depth & Q). exists (vt_depth tree + depth)%nat. intros n Hn.
  unfold read_searchable. rewrite V by lia. cbn [bind]. apply Q. lia.
Qed.

(** A page shows text, draws a form and shows text again in the font it had.  The form starts with the font of the page, shows text in a font
    of its own, and draws an image and an inner form. *)
Definition search_page : list ModelContent.ccall :=
  [ModelContent.CSetFont (lit "F") f32_zero; ModelContent.CShow [x00; x01]; ModelContent.CXObject (lit "Fm"); ModelContent.CShow [x00; x02]].
Definition search_form : list ModelContent.ccall :=
  [ModelContent.CShow [x02; x03]; ModelContent.CSetFont (lit "F") f32_zero; ModelContent.CShow [x02];
   ModelContent.CXObject (lit "In"); ModelContent.CXObject (lit "Im"); ModelContent.CXObject (lit "In")].
Definition search_inner : list ModelContent.ccall := [ModelContent.CShow [x41]].
Definition search_resources : Resources_calls :=
  [Typed (Resources_fonts [(lit "F", OPrim (PRef 10))]); Typed (Resources_x_objects [(lit "Fm", OPrim (PRef 5))])].
Definition search_form_resources : Resources_calls :=
  [Typed (Resources_fonts [(lit "F", OPrim (PRef 11))]); Typed (Resources_x_objects [(lit "Im", OPrim (PRef 7)); (lit "In", OPrim (PRef 6))])].
Definition search_sample : list doc_op := [
  DocTyped 3 (Ck_page [Typed (Page_contents 4); Typed (Page_resources search_resources)]);
  DocTyped 2 (Ck_pages [Typed (Pages_kids [3])]);
  DocTyped 4 (Ck_stream (content_of search_page) []);
  DocTyped 5 (Ck_form_xobject (content_of search_form) [STyped (FormXObject_resources search_form_resources)]);
  DocTyped 6 (Ck_form_xobject (content_of search_inner) [STyped (FormXObject_resources [])]);
  DocTyped 7 (Ck_image_xobject [x00] []);
  DocTyped 10 (Ck_type0_font [Typed (Type0Font_encoding_predefined (lit "Identity-H")); Typed (Type0Font_to_unicode 12)]);
  DocTyped 11 (Ck_type1_font [Typed (Type1Font_to_unicode 13)]);
  DocTyped 12 (Ck_cmap text_cmap16 []);
  DocTyped 13 (Ck_cmap text_cmap8 []);
  DocCatalog 1 [Typed (Catalog_pages 2)]].
Definition search_views : view_tree := VtNode 2 None [VtPage 3 (Some search_resources) (OneStream search_page)].
Definition search_inner_form : text_xobject := TextForm [] [] search_inner.
Definition search_outer_form : text_xobject :=
  TextForm [(lit "F", (11, Some (ModelCmap.GU8, text_map8)))] [(lit "Im", (7, TextlessImage)); (lit "In", (6, search_inner_form))] search_form.
(** H pi ! fi A A emoji *)
Definition search_text : list Z := [72; 960; 33; 102; 105; 65; 65; 128512].
Lemma form_stored calls fcalls : ModelContent.content_run calls (ModelContent.content_with_settings false) <> None ->
  stream_called (lit "Filter") <| Stream_filter f => f |> (fun _ : FormXObject_call => []) fcalls None ->
  exists c, ModelContent.content_run calls (ModelContent.content_with_settings false) = Some c /\
    stored_with no_filter fcalls (content_of calls) (inner (ModelContent.content_finish c)).
Proof.
  intros H F. unfold content_of. destruct (ModelContent.content_run calls (ModelContent.content_with_settings false)) as [c|] eqn:Q; [|congruence].
  exists c. split; [reflexivity|]. exists None. split; [exact F|reflexivity].
Qed.
Example C102_case : views_written no_filter search_sample [Typed (Catalog_pages 2)] search_views /\
  Forall2 (page_text_is no_filter search_sample) (vt_pages [] search_views) [search_text].
Proof.
  assert (F10 : font_written no_filter search_sample 10 (ModelCmap.GU16, text_map16)).
  { eexists _, 12, text_cmap16, [], (lit "M"), text_info, ModelCmap.WHorizontal.
    split; [right; right; right; right; right; right; left; reflexivity|]. split; [split; [reflexivity|exists (lit "Identity-H"); split; [left; reflexivity|reflexivity]]|].
    split; [cbn [search_sample In]; tauto|]. split; [split; [reflexivity|repeat constructor; discriminate]|]. exists None; split; reflexivity. }
  assert (F11 : font_written no_filter search_sample 11 (ModelCmap.GU8, text_map8)).
  { eexists _, 13, text_cmap8, [], (lit "N"), text_info, ModelCmap.WHorizontal.
    split; [right; right; right; right; right; right; right; left; reflexivity|]. split; [reflexivity|].
    split; [cbn [search_sample In]; tauto|]. split; [split; [reflexivity|repeat constructor; discriminate]|]. exists None; split; reflexivity. }
  split.
  - split; [reflexivity|]. split; [eexists; split; [cbn [search_sample In]; tauto|split; reflexivity]|].
    split; [|exact I]. eexists; split; [cbn [search_sample In]; tauto|split; [reflexivity|]]. eexists; split; [reflexivity|].
    apply content_case; [cbn [search_sample In]; tauto|vm_compute; reflexivity|vm_compute; discriminate].
  - constructor; [|constructor]. exists [(lit "F", (10, Some (ModelCmap.GU16, text_map16)))], [(lit "Fm", (5, search_outer_form))].
    split; [split; [right; reflexivity|apply Forall_cons; [exact F10|apply Forall_nil]]|].
    split; [right; reflexivity|]. split; [|vm_compute; reflexivity]. apply Forall_cons; [|apply Forall_nil].
    destruct (form_stored search_form [STyped (FormXObject_resources search_form_resources)]) as (c & C1 & C2); [vm_compute; discriminate|reflexivity|].
    destruct (form_stored search_inner [STyped (FormXObject_resources [])]) as (c' & C1' & C2'); [vm_compute; discriminate|reflexivity|].
    split.
    { eexists _, _, search_form_resources, false, c. split; [cbn [search_sample In]; tauto|]. split; [reflexivity|]. split; [reflexivity|].
      split; [vm_compute; reflexivity|]. split; [exact C1|]. split; [exact C2|].
      split; [split; [right; reflexivity|apply Forall_cons; [exact F11|apply Forall_nil]]|right; reflexivity]. }
    split; [eexists _, _; split; [cbn [search_sample In]; tauto|reflexivity]|]. split; [|exact I].
    split; [|exact I]. eexists _, _, [], false, c'. split; [cbn [search_sample In]; tauto|]. split; [reflexivity|]. split; [reflexivity|].
    split; [vm_compute; reflexivity|]. split; [exact C1'|]. split; [exact C2'|].
    split; [split; [left; split; reflexivity|apply Forall_nil]|left; split; reflexivity].
Qed.
Example C102_file : exists file, finished_document no_filter search_sample 1 file /\ read_searchable no_filter 3 file = Some [search_text].
Proof.
  assert (X : match doc_run search_sample (pdf_with_settings true) with
              | Some p => match finish p with Some file => (blen file <=? 10 ^ 10, read_searchable no_filter 3 file) | None => (false, None) end
              | None => (false, None) end = (true, Some [search_text])) by (vm_compute; reflexivity).
  destruct (doc_run search_sample (pdf_with_settings true)) as [p|] eqn:R; [|discriminate].
  destruct (finish p) as [file|] eqn:F; [|discriminate]. exists file.
  split; [apply (finished_table _ _ _ _ true p); [|exact R|exact F| |apply Z.leb_le; exact (f_equal fst X)|reflexivity]|exact (f_equal snd X)].
  - repeat (apply Forall_cons; [cbn [doc_op_ok op_typed]; repeat split|]); apply Forall_nil.
  - unfold ids_below; repeat constructor.
Qed.

Print Assumptions C102_text_in_forms.
