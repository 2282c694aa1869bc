(** C92: marked content and its property lists, from the trailer on. *)

From Coq Require Import ZArith List Bool Lia.
From Verif Require SpecInfo ModelCmap ModelContent SpecContent SpecForm PropForm.
From Verif Require Import Bytes ModelFloat ModelBuf ModelObject ModelChunk ModelColor ModelSmall ModelPdf ModelTw ModelEnums ModelRoles ModelTwArgs
  ModelTwFiles ModelTwGraphics ModelTwAnnot ModelTwForms ModelTwAttr ModelTwXObj ModelTwFonts ModelTwDoc ModelFontDesc ModelDoc
  SpecLex SpecObj SpecText SpecMeans SpecRenum SpecChunk SpecFile SpecPdf SpecTyped SpecColor SpecSmall SpecTw SpecEnums SpecRoles SpecTwArgs
  SpecTwFiles SpecTwGraphics SpecTwAnnot SpecTwForms SpecTwAttr SpecTwXObj SpecTwFonts SpecTwDoc SpecFontDesc SpecDoc SpecPages SpecExtract SpecNav SpecViews SpecTagged SpecPaint SpecFunctions SpecActions SpecPresent SpecColors SpecImages SpecAppear SpecAttrs SpecMarks SpecFields SpecFaces SpecMarked
  ProofBasic ProofTree ProofTyped ProofTw ProofTwGraphics ProofTwDoc PropDoc PropPdf2 PropPages PropExtract PropNav PropTagged PropInfo PropPaint PropFunctions PropColors PropActions PropPresent PropImages PropAppear PropAttrs PropFields PropFaces.
Import ListNotations.
Local Open Scope Z_scope.

Lemma property_entries {A} k (P : A -> val -> Prop) own artifact calls a :
  (forall c, match c with PropertyList_artifact _ => True | _ => entries_for k (PropertyList_doc c) = map (reading k P) (own c) end) ->
  (forall c, entries_for k (Artifact_doc c) = map (reading k P) (artifact c)) ->
  property_called k own artifact calls a -> entries_for k (writer_doc PropertyList_head PropertyList_doc calls) = entry_or_none k (option_map P a).
Proof.
  intros H1 H2 H. apply (called_entries _ _ P PropertyList_head PropertyList_doc) in H; [exact H|reflexivity|]. intro c. specialize (H1 c).
  destruct c; try exact H1. exact (given_entries k artifact P [] Artifact_doc calls0 H2).
Qed.
Ltac pcall H P := apply (property_entries _ P) in H; [|let c := fresh in intro c; destruct c; exact Logic.I || reflexivity|each_call].
Lemma attached_found l v : is_array_of is_ArtifactAttachment l v -> read_list (read_named ArtifactAttachment_table) v = Some l.
Proof.
  intro H. etransitivity; [exact (list_found is_ArtifactAttachment (read_named ArtifactAttachment_table) (fun x => x) (enum_found _) l v H)|]. rewrite map_id. reflexivity.
Qed.
Definition sets_read (given : option (list ProcSet)) : val -> Prop :=
  match given with
  | Some l => is_array_of is_ProcSet l
  | None => is_array [is_name (lit "PDF"); is_name (lit "Text"); is_name (lit "ImageB"); is_name (lit "ImageC"); is_name (lit "ImageI")]
  end.
Lemma sets_found given l v : sets_asked given l -> sets_read given v -> read_list (read_named ProcSet_table) v = Some l.
Proof.
  intros -> H. destruct given as [l'|]; cbn [sets_read] in H.
  - etransitivity; [exact (list_found is_ProcSet (read_named ProcSet_table) (fun x => x) (enum_found _) l' v H)|]. rewrite map_id. reflexivity.
  - destruct H as (vs & -> & F). repeat match goal with F : Forall2 _ _ _ |- _ => inversion F; clear F; subst end. unfold is_name in *. subst. reflexivity.
Qed.
Lemma dict_of_named {A} (P : A -> val -> Prop) l d n a : is_dict_of P l (VDict d) -> entry_named n l = Some a -> exists v, lookup n d = Some v /\ P a v.
Proof.
  intros (d' & E & F) H. injection E as <-. revert d F. induction l as [|[k x] l IH]; intros d F; [discriminate|]. cbn [map fst snd] in F.
  inversion F as [|? [k' v] ? d' [F1 F2] F3]; subst. cbn [fst snd] in F1, F2. subst k'. cbn [entry_named] in H. cbn [lookup].
  destruct (bytes_eqb n k); [apply some_inj in H; subst; exists v; split; [reflexivity|exact F2]|exact (IH H _ F3)].
Qed.

Section Walk.
  Variables (resolved : Z -> option indirect).

  Lemma property_list_found calls x v : property_list_written calls x -> PropertyList_reads calls v -> exists r, (read_property_list resolved) v = Some r /\ property_list_is x r.
  Proof using Type.
    intros (H0 & H1 & H2 & H3 & H4 & H5) Q. destruct (dict_is _ _ Q) as [d ->]. destruct x as [p0 p1 p2 p3 p4 p5].
    cbn [pl_id pl_text pl_kind pl_subtype pl_box pl_attached] in *.
    pcall H0 is_int.
    pcall H1 is_textlike.
    pcall H2 is_ArtifactType.
    pcall H5 (is_array_of is_ArtifactAttachment).
    assert (Y4 : exists r, optional (lit "BBox") d read_numbers = Some r /\ optionally numbers_are p4 r).
    { apply (part_related (lit "BBox") is_rect _ rect_list _ _ _ d p4 Q) with (2 := H4); [intros c H; pcall H is_rect; exact H|exact rect_numbers]. }
    destruct Y4 as (r4 & E4 & X4).
    exists (mkPropertyList p0 p1 p2 p3 r4 p5).
    split; [|unfold property_list_is; repeat (split; [first [reflexivity|assumption]|]); first [reflexivity|assumption]].
    unfold read_property_list. cbn [object_dict bind].
    rewrite (same_found (lit "MCID") is_int _ _ _ p0 Q H0 whole_found). cbn [bind].
    rewrite (text_option_found _ _ (lit "ActualText") p1 Q H1). cbn [bind].
    rewrite (same_found (lit "Type") is_ArtifactType _ _ _ p2 Q H2 (enum_found _)). cbn [bind].
    rewrite (part_same (lit "Subtype") is_ArtifactSubtype _ (fun x y => x = y /\ subtype_apart x) _ _ d p3 Q) with (2 := H3); [|intros c H; pcall H is_ArtifactSubtype; exact H|intros x y v [-> H]; exact (subtype_found y v H)]. cbn [bind].
    rewrite E4. cbn [bind].
    rewrite (same_found (lit "Attached") (is_array_of is_ArtifactAttachment) _ _ _ p5 Q H5 (attached_found)). cbn [bind].
    reflexivity.
  Qed.

  Lemma properties_found calls res m x v : Resources_reads calls (VDict res) -> properties_written calls m x -> means (SpecContent.properties m) v ->
    exists r, read_properties resolved res v = Some r /\ property_list_is x r.
  Proof using Type.
    intros D (pcalls & W & H) M. destruct m as [entries|n]; cbn [SpecContent.properties] in M.
    - destruct H as [E O]. rewrite E in M. destruct (good_PropertyList pcalls O) as [_ G]. specialize (G v M). destruct (property_list_found pcalls x v W G) as (r & X & Y).
      exists r. split; [|exact Y]. destruct (dict_is _ _ G) as [d ->]. exact X.
    - destruct H as (lists & L & E). entries L Resources_head Resources_doc (is_dict_of PropertyList_reads). inversion M; subst.
      destruct (dict_lookup _ _ _ _ D L) as (v & K & Q). destruct (dict_is _ _ Q) as [d ->]. destruct (dict_of_named _ _ _ _ _ Q E) as (v & K' & Q').
      destruct (property_list_found pcalls x v W Q') as (r & X & Y). exists r. split; [|exact Y]. cbn [read_properties]. unfold required. rewrite K. cbn [bind object_dict]. rewrite K'. exact X.
  Qed.
  Lemma tag_found t v : means (SpecContent.nam t) v -> v = VName t.
  Proof using Type. intro M. inversion M; subst. reflexivity. Qed.

  (** Reading the content that the calls write, then the rest. *)
  Lemma content_read calls res cs l : Resources_reads calls (VDict res) -> content_marked calls cs l -> forall ops, Forall2 SpecContent.ccall_means cs ops ->
    exists rs, Forall2 content_is l rs /\ forall opened done rest, read_content resolved res opened done (ops ++ rest) = read_content resolved res opened (rev rs ++ done) rest.
  Proof using Type.
    intros D W. induction W as [|c cs l P W IH|tag cs l W IH|tag m p cs l P W IH|tag inner inside cs l W1 IH1 W2 IH2|tag m p inner inside cs l P W1 IH1 W2 IH2]; intros ops F.
    - inversion F; subst. exists []. split; [constructor|reflexivity].
    - inversion F as [|? op ? ops' F1 F2]; subst. destruct (IH _ F2) as (rs & A & B). exists (Plain op :: rs). split; [constructor; [constructor; exact F1|exact A]|].
      intros opened done rest. cbn [app read_content rev]. destruct F1 as [_ F1]. rewrite F1. unfold plain_call in P. apply negb_true_iff in P. cbn [existsb] in P.
      apply orb_false_iff in P. destruct P as [-> P]. apply orb_false_iff in P. destruct P as [-> P]. apply orb_false_iff in P. destruct P as [-> P].
      apply orb_false_iff in P. destruct P as [-> P]. apply orb_false_iff in P. destruct P as [-> _]. rewrite B, <- app_assoc. reflexivity.
    - inversion F as [|? [vs k] ? ops' [F1 F1'] F2]; subst. cbn [SpecContent.iso_operation fst snd] in *. subst k. inversion F1 as [|? v ? ? V1 V2]; subst. inversion V2; subst. apply tag_found in V1. subst v.
      destruct (IH _ F2) as (rs & A & B). exists (Point tag None :: rs). split; [constructor; [constructor; exact Logic.I|exact A]|].
      intros opened done rest. cbn [rev]. rewrite <- app_assoc. exact (B opened (Point tag None :: done) rest).
    - inversion F as [|? [vs k] ? ops' [F1 F1'] F2]; subst. cbn [SpecContent.iso_operation fst snd] in *. subst k. inversion F1 as [|? v ? ? V1 V2]; subst.
      inversion V2 as [|? w ? ? V3 V4]; subst. inversion V4; subst. apply tag_found in V1. subst v.
      destruct (properties_found _ _ _ _ _ D P V3) as (r & X & Y).
      destruct (IH _ F2) as (rs & A & B). exists (Point tag (Some r) :: rs). split; [constructor; [constructor; exact Y|exact A]|].
      intros opened done rest. cbn [rev]. rewrite <- app_assoc. cbn [app]. rewrite <- B. cbn [app read_content fst snd].
      change (bytes_eqb (lit "DP") (lit "MP")) with false. change (bytes_eqb (lit "DP") (lit "DP")) with true. cbv iota. rewrite X. reflexivity.
    - inversion F as [|? [vs k] ? ops' [F1 F1'] F2]; subst. cbn [SpecContent.iso_operation fst snd] in *. subst k. inversion F1 as [|? v ? ? V1 V2]; subst. inversion V2; subst. apply tag_found in V1. subst v.
      apply Forall2_app_inv_l in F2. destruct F2 as (ops1 & ops2 & G1 & G2 & ->). inversion G2 as [|? [vs k] ? ops3 [G3 G3'] G4]; subst. cbn [SpecContent.iso_operation fst snd] in *. subst k. inversion G3; subst.
      destruct (IH1 _ G1) as (rs1 & A1 & B1). destruct (IH2 _ G4) as (rs2 & A2 & B2).
      exists (Sequence tag None rs1 :: rs2). split; [constructor; [constructor; [exact Logic.I|exact A1]|exact A2]|].
      intros opened done rest. cbn [rev]. rewrite <- app_assoc. cbn [app]. rewrite <- app_assoc.
      transitivity (read_content resolved res ((tag, None, done) :: opened) [] (ops1 ++ ((([], lit "EMC") : operation) :: ops3) ++ rest)); [reflexivity|].
      rewrite B1, app_nil_r. cbn [app]. transitivity (read_content resolved res opened (Sequence tag None (rev (rev rs1)) :: done) (ops3 ++ rest)); [reflexivity|].
      rewrite rev_involutive, B2. reflexivity.
    - inversion F as [|? [vs k] ? ops' [F1 F1'] F2]; subst. cbn [SpecContent.iso_operation fst snd] in *. subst k. inversion F1 as [|? v ? ? V1 V2]; subst.
      inversion V2 as [|? w ? ? V3 V4]; subst. inversion V4; subst. apply tag_found in V1. subst v.
      destruct (properties_found _ _ _ _ _ D P V3) as (r & X & Y).
      apply Forall2_app_inv_l in F2. destruct F2 as (ops1 & ops2 & G1 & G2 & ->). inversion G2 as [|? [vs k] ? ops3 [G3 G3'] G4]; subst. cbn [SpecContent.iso_operation fst snd] in *. subst k. inversion G3; subst.
      destruct (IH1 _ G1) as (rs1 & A1 & B1). destruct (IH2 _ G4) as (rs2 & A2 & B2).
      exists (Sequence tag (Some r) rs1 :: rs2). split; [constructor; [constructor; [exact Y|exact A1]|exact A2]|].
      intros opened done rest. cbn [rev]. rewrite <- app_assoc. cbn [app]. rewrite <- app_assoc.
      transitivity (read_content resolved res ((tag, Some r, done) :: opened) [] (ops1 ++ ((([], lit "EMC") : operation) :: ops3) ++ rest)).
      { cbn [app read_content fst snd]. change (bytes_eqb (lit "BDC") (lit "MP")) with false. change (bytes_eqb (lit "BDC") (lit "DP")) with false.
        change (bytes_eqb (lit "BDC") (lit "BMC")) with false. change (bytes_eqb (lit "BDC") (lit "BDC")) with true. cbv iota. rewrite X. reflexivity. }
      rewrite B1, app_nil_r. cbn [app]. transitivity (read_content resolved res opened (Sequence tag (Some r) (rev (rev rs1)) :: done) (ops3 ++ rest)); [reflexivity|].
      rewrite rev_involutive, B2. reflexivity.
  Qed.
  Definition page_content_is (x : option (list ProcSet) * list (content ModelContent.ccall f32)) (r : option (list ProcSet) * list (content operation val)) : Prop :=
    fst r = fst x /\ Forall2 content_is (snd x) (snd r).
  Lemma page_content_found p v x : view_is p v -> page_content_written p x -> exists r, read_page_content resolved v = Some r /\ page_content_is x r.
  Proof using Type.
    intros (_ & D & F) [W1 W2]. destruct v as [[id res] ops], x as [sets l]. cbn [fst snd] in *. destruct (dict_is _ _ D) as [d ->].
    destruct (content_read _ _ _ _ D W2 _ F) as (rs & A & B). exists (sets, rs). split; [|split; [reflexivity|exact A]]. unfold read_page_content. cbn [fst snd object_dict bind].
    rewrite (part_same (lit "ProcSet") sets_read _ sets_asked _ _ d sets D) with (2 := W1); [|intros c H; entries H Resources_head Resources_doc sets_read; exact H|exact sets_found]. cbn [bind].
    specialize (B [] [] []). rewrite !app_nil_r in B. rewrite B. cbn [read_content]. rewrite rev_involutive. reflexivity.
  Qed.
End Walk.

(** A reader that starts from the trailer finds for every page its content with the marks in it, nested as they were written, with the tags and property lists
    (in place or in the resources), and the procedure sets. *)
Theorem C92_content : forall decode ops cat file calls tree asked,
  finished_document decode ops cat file -> In (DocCatalog cat calls) ops -> views_written decode ops calls tree ->
  Forall2 page_content_written (vt_pages [] tree) asked ->
  exists rs depth, Forall2 (fun x r => fst r = fst x /\ Forall2 content_is (snd x) (snd r)) asked rs /\ forall n, (depth <= n)%nat -> read_contents decode n file = Some rs.
Proof.
  intros decode ops cat file calls tree asked D I V W. destruct (views_found _ _ _ _ _ _ D I V) as (vs & F & P).
  assert (Y : exists rs, SpecNav.all_of (map (read_page_content (resolve decode file)) vs) = Some rs /\ Forall2 page_content_is asked rs).
  { clear - F W. revert asked W. induction F as [|p v ps vs F1 F IH]; intros asked W; inversion W as [|? x ? xs W1 W2]; subst; [exists []; split; [reflexivity|constructor]|].
    destruct (IH _ W2) as (rs & A & B). destruct (page_content_found (resolve decode file) p v x F1 W1) as (r & X & Z). exists (r :: rs).
    split; [|constructor; assumption]. cbn [map SpecNav.all_of]. rewrite X, A. reflexivity. }
  destruct Y as (rs & A & B). exists rs, (vt_depth tree). split; [exact B|]. intros n Hn. unfold read_contents. rewrite (P n Hn). cbn [bind]. exact A.
Qed.

(** ** A page with a sequence in a sequence, a point, and property lists in place and in the resources *)
Definition content_list : PropertyList_calls := [Typed (PropertyList_identify 3); Typed (PropertyList_actual_text (TextPlain [102; 960]))].
Definition content_artifact : PropertyList_calls := [Typed (PropertyList_artifact [Typed (Artifact_kind ArtifactType_Pagination); Typed (Artifact_subtype ArtifactSubtype_Footer);
  Typed (Artifact_bounding_box (mkRect f32_zero f32_zero one one)); Typed (Artifact_attached [ArtifactAttachment_Bottom; ArtifactAttachment_Left])])].
Definition content_resources : Resources_calls := [Typed Resources_proc_sets_all; Typed (Resources_properties [(lit "Q", []); (lit "A", content_artifact)])].
Definition content_page : list ModelContent.ccall := [
  ModelContent.CSaveState;
  ModelContent.CBeginMarkedContentWithProperties (lit "Artifact") (ModelContent.MarkNamed (lit "A"));
  ModelContent.CMarkedContentPoint (lit "X");
  ModelContent.CBeginMarkedContent (lit "P");
  ModelContent.CStroke;
  ModelContent.CEndMarkedContent;
  ModelContent.CFillNonzero;
  ModelContent.CEndMarkedContent;
  ModelContent.CMarkedContentPointWithProperties (lit "Span") (ModelContent.MarkDict (writer_list [] PropertyList_entries content_list));
  ModelContent.CRestoreState].
Definition content_sample : list doc_op := [
  DocTyped 2 (Ck_pages [Typed (Pages_kids [3]); Typed (Pages_resources content_resources)]);
  DocTyped 3 (Ck_page [Typed (Page_contents 4)]);
  DocTyped 4 (Ck_stream (content_of content_page) []);
  DocCatalog 1 [Typed (Catalog_pages 2)]].
Definition content_tree : view_tree := VtNode 2 (Some content_resources) [VtPage 3 None (OneStream content_page)].
Definition content_parts {Op N} (op : ModelContent.ccall -> Op) (zero one : N) : option (list ProcSet) * list (content Op N) :=
  (Some [ProcSet_Pdf; ProcSet_Text; ProcSet_ImageGrayscale; ProcSet_ImageColor; ProcSet_ImageIndexed], [
    Plain (op ModelContent.CSaveState);
    Sequence (lit "Artifact") (Some (mkPropertyList None None (Some ArtifactType_Pagination) (Some ArtifactSubtype_Footer) (Some [zero; zero; one; one])
        (Some [ArtifactAttachment_Bottom; ArtifactAttachment_Left]))) [
      Point (lit "X") None; Sequence (lit "P") None [Plain (op ModelContent.CStroke)]; Plain (op ModelContent.CFillNonzero)];
    Point (lit "Span") (Some (mkPropertyList (Some 3) (Some [102; 960]) None None None None));
    Plain (op ModelContent.CRestoreState)]).
Example C92_case : views_written no_filter content_sample [Typed (Catalog_pages 2)] content_tree /\
  Forall2 page_content_written (vt_pages [] content_tree) [content_parts (fun c => c) f32_zero one].
Proof.
  split.
  - split; [reflexivity|]. split; [eexists; split; [cbn [content_sample In]; tauto|split; reflexivity]|].
    split; [|exact Logic.I]. eexists. split; [cbn [content_sample In]; tauto|]. split; [reflexivity|]. eexists. split; [reflexivity|].
    apply content_case; [cbn [content_sample In]; tauto|vm_compute; reflexivity|vm_compute; discriminate].
  - constructor; [|constructor]. split; [eexists; split; reflexivity|]. cbn [content_tree vt_pages flat_map app pa_calls pa_resources or_inherited contents_calls content_page content_parts fst snd].
    apply MarkedPlain; [reflexivity|].
    apply (MarkedSequenceWith _ (lit "Artifact") _ _ [ModelContent.CMarkedContentPoint (lit "X"); ModelContent.CBeginMarkedContent (lit "P"); ModelContent.CStroke; ModelContent.CEndMarkedContent; ModelContent.CFillNonzero]).
    + exists content_artifact. split; [|eexists; split; reflexivity]. repeat (split; [first [reflexivity|eexists; split; [reflexivity|split; [reflexivity|exact Logic.I]]|eexists; split; reflexivity]|]). reflexivity.
    + apply MarkedPoint. apply (MarkedSequence _ (lit "P") [ModelContent.CStroke]); [apply MarkedPlain; [reflexivity|constructor]|]. apply MarkedPlain; [reflexivity|constructor].
    + apply MarkedPointWith; [|apply MarkedPlain; [reflexivity|constructor]]. exists content_list. split; [|split; reflexivity].
      repeat (split; [reflexivity|]). reflexivity.
Qed.
(** And the file is really read so. *)
Definition plain_operator (c : ModelContent.ccall) : operation := ([], snd (SpecContent.iso_operation c)).
Example C92_file : exists file, finished_document no_filter content_sample 1 file /\
  read_contents no_filter 2 file = Some [content_parts plain_operator (VInt 0) (VInt 1)].
Proof.
  assert (X : match doc_run content_sample (pdf_with_settings true) with
              | Some p => match finish p with Some f => (blen f <=? 10 ^ 10, read_contents no_filter 2 f) | None => (false, None) end
              | None => (false, None) end = (true, Some [content_parts plain_operator (VInt 0) (VInt 1)])) by (vm_compute; reflexivity).
  destruct (doc_run content_sample (pdf_with_settings true)) as [p|] eqn:R; [|discriminate].
  destruct (finish p) as [file|] eqn:F; [|discriminate]. exists file.
  split; [apply (finished_table _ _ _ _ true p); [|exact R|exact F| |apply Z.leb_le; exact (f_equal fst X)|reflexivity]|].
  - repeat (apply Forall_cons; [cbn [doc_op_ok op_typed]; repeat split|]); apply Forall_nil.
  - unfold ids_below; repeat constructor.
  - exact (f_equal snd X).
Qed.

Print Assumptions C92_content.
