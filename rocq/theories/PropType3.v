(** C95: what the glyphs of Type 3 fonts paint. *)

From Coq Require Import ZArith List Bool Lia.
From Verif Require ModelCmap ModelContent SpecContent ModelPs SpecPs PropContent.
From Verif Require Import Bytes ModelFloat ModelBuf ModelObject ModelChunk ModelColor ModelSmall ModelPdf ModelTw ModelEnums ModelRoles ModelTwArgs
  ModelTwFiles ModelTwGraphics ModelTwAnnot ModelTwForms ModelTwAttr ModelTwXObj ModelTwFonts ModelTwDoc ModelFontDesc ModelDoc
  SpecLex SpecObj SpecText SpecMeans SpecRenum SpecChunk SpecFile SpecPdf SpecTyped SpecColor SpecSmall SpecTw SpecEnums SpecRoles SpecTwArgs
  SpecTwFiles SpecTwGraphics SpecTwAnnot SpecTwForms SpecTwAttr SpecTwXObj SpecTwFonts SpecTwDoc SpecFontDesc SpecDoc SpecPages SpecExtract SpecNav SpecViews SpecPaint SpecFunctions SpecColors SpecType3
  ProofBasic ProofTree ProofTyped ProofColor ProofTw ProofTwGraphics ProofTwDoc PropDoc PropPdf2 PropPages PropExtract PropNav PropTagged PropPaint PropFunctions PropGlyphs PropColors.
Import ListNotations.
Local Open Scope Z_scope.

Section Walk.
  Variables (decode : option val -> bytes -> option bytes) (resolved : Z -> option indirect) (ops : list doc_op).
  Hypothesis R : Forall (fun op => doc_op_reads op resolved) ops.

  Lemma glyph_found res rv xs content id l : Resources_reads res rv -> xobjects_named res xs -> Forall (fun x => drawing_written decode ops (fst (snd x)) (snd (snd x))) xs ->
    content_written decode ops content id -> asked_painting res xs content = Some l ->
    finds paintings_are l (fun n => read_glyph decode resolved n rv (VRef id 0)).
  Proof using R.
    intros P X1 X2 W A. destruct (PropPages.content_found decode resolved ops R content id W) as (pretty & out & E & O & c & C & ->).
    destruct (PropContent.C36_finish_keeps_operations pretty content c O C) as (_ & l0 & P0 & M).
    destruct (runs_alike _ _ _ (page_draws_alike decode resolved ops R _ _ _ P X1 X2) _ _ (ops_alike _ _ _ _ P M) _ _ l (start_alike [] [] (Forall2_nil _)) A) as (l' & Z1 & Z2).
    exists l', (deepest xs). split; [exact Z1|]. intros n L. unfold read_glyph. cbn [read_id bind]. rewrite E. cbn [bind]. rewrite P0. cbn [bind]. apply Z2. exact L.
  Qed.
  Lemma type3_found pr pv id l : Resources_reads pr pv -> type3_written decode ops pr id l ->
    finds (named_are paintings_are) l (fun n => read_glyphs decode resolved pv n (VRef id 0)).
  Proof using R.
    intros PP (calls & procs & res & xs & I & T & G & C & X1 & X2 & F). apply (own_type Type3Font_head Type3Font_doc) in T; [|each_call].
    entries C Type3Font_head Type3Font_doc (is_dict_of is_ref).
    destruct (found resolved ops R _ _ I) as (i & E & v & -> & D). destruct (dict_is _ _ D) as [d ->].
    destruct (dict_lookup _ _ _ _ D T) as (tv & LT & ->). destruct (dict_lookup _ _ _ _ D C) as (cv & LC & PC). destruct (dict_is _ _ PC) as [ps ->].
    assert (X : exists rv, match lookup (lit "Resources") d with Some res => res | None => pv end = rv /\ Resources_reads res rv).
    { destruct G as [G|[G ->]]; entries G Type3Font_head Type3Font_doc Resources_reads.
      - destruct (dict_lookup _ _ _ _ D G) as (rv & L & Q). exists rv. rewrite L. split; [reflexivity|exact Q].
      - exists pv. rewrite (dict_lookup_none _ _ _ D G). split; [reflexivity|exact PP]. }
    destruct X as (rv & RE & RR).
    assert (Y : finds (named_are paintings_are) l (fun n => SpecNav.all_of (map (fun e => option_map (pair (fst e)) (read_glyph decode resolved n rv (snd e))) ps))).
    { destruct PC as (ps' & Q & F2). injection Q as <-. clear - R RR X1 X2 F F2. revert ps F2. induction F as [|[k id] [k' g] procs l [H1 (content & H2 & H3)] F IH]; intros ps F2;
        cbn [map] in F2; inversion F2 as [|? [k2 v] ? ps' [A1 A2] F3]; subst; [exists [], 0%nat; split; [constructor|reflexivity]|].
      cbn [fst snd] in *. subst k k2. unfold is_ref in A2. subst v. destruct (IH _ F3) as (rs & d1 & Q1 & G1). destruct (glyph_found _ _ _ _ _ _ RR X1 X2 H2 H3) as (r & d2 & Q2 & G2).
      exists ((k', r) :: rs), (d1 + d2)%nat. split; [constructor; [split; [reflexivity|exact Q2]|exact Q1]|].
      intros n L. cbn [map SpecNav.all_of fst snd]. rewrite G2 by lia. cbn [option_map]. rewrite G1 by lia. reflexivity. }
    destruct Y as (r & m & Y1 & Y2). exists r, m. split; [exact Y1|]. intros n L. unfold read_glyphs. cbn [object_dict]. rewrite E. cbn [bind]. unfold required. rewrite LT. cbn [bind read_name].
    change (bytes_eqb (lit "Type3") (lit "Type3")) with true. cbv iota zeta. rewrite LC, RE. cbn [bind object_dict]. apply Y2. exact L.
  Qed.
  Lemma font_in_found pr pv o l v : Resources_reads pr pv -> font_in decode ops pr o l -> means o v ->
    finds (named_are paintings_are) l (fun n => read_glyphs decode resolved pv n v).
  Proof using R.
    intros P (id & -> & [W|[W ->]]) M; inversion M; subst; [exact (type3_found pr pv id l P W)|]. exists [], 0%nat. split; [constructor|]. intros n _.
    destruct W as [(calls & I & T)|(calls & I & T)].
    - apply (own_type Type1Font_head Type1Font_doc) in T; [|each_call]. destruct (found resolved ops R _ _ I) as (i & E & v & -> & D). destruct (dict_is _ _ D) as [d ->].
      destruct (dict_lookup _ _ _ _ D T) as (tv & LT & ->). unfold read_glyphs. cbn [object_dict]. rewrite E. cbn [bind]. unfold required. rewrite LT. reflexivity.
    - apply (own_type Type0Font_head Type0Font_doc) in T; [|each_call]. destruct (found resolved ops R _ _ I) as (i & E & v & -> & D). destruct (dict_is _ _ D) as [d ->].
      destruct (dict_lookup _ _ _ _ D T) as (tv & LT & ->). unfold read_glyphs. cbn [object_dict]. rewrite E. cbn [bind]. unfold required. rewrite LT. reflexivity.
  Qed.
  Lemma page_type3_found p rv l : Resources_reads (pa_resources p) rv -> page_glyphs_written decode ops p l ->
    finds (named_are (named_are paintings_are)) l (fun n => named_in (lit "Font") (read_glyphs decode resolved rv n) rv).
  Proof using R.
    intros D W. destruct (dict_is _ _ D) as [d E]. subst rv.
    exact (category_found (named_are paintings_are) (font_in decode ops (pa_resources p)) (read_glyphs decode resolved (VDict d)) (called (lit "Font") <| Resources_fonts es => es |> (pa_resources p)) (lit "Font") _ d l D
      (fun o H => ltac:(entries H Resources_head Resources_doc (fun es => means (ODict es)); exact H)) (fun o a v => font_in_found _ _ o a v D) W).
  Qed.
End Walk.

(** A reader that starts from the trailer finds for every page and every Type 3 font in its resources, by their names, the glyphs with what each of them paints, the
    XObjects being those of the font's own resources if it has any and otherwise those of the page. *)
Theorem C95_glyph_drawings : forall decode ops cat file calls tree asked,
  finished_document decode ops cat file -> In (DocCatalog cat calls) ops -> views_written decode ops calls tree ->
  Forall2 (page_glyphs_written decode ops) (vt_pages [] tree) asked ->
  exists rs depth, Forall2 (named_are (named_are paintings_are)) asked rs /\ forall n, (depth <= n)%nat -> read_page_glyphs decode n file = Some rs.
Proof.
  intros decode ops cat file calls tree asked D I W P. destruct (document_facts _ _ _ _ D) as [X _].
  destruct (views_found _ _ _ _ _ _ D I W) as (vs & F & V).
  assert (Y : exists read depth, Forall2 (named_are (named_are paintings_are)) asked read /\ forall n, (depth <= n)%nat ->
    SpecNav.all_of (map (fun v => let res := snd (fst v) in named_in (lit "Font") (read_glyphs decode (resolve decode file) res n) res) vs) = Some read).
  { clear - P F X. revert asked P. induction F as [|p v ps vs (H1 & H2 & H3) F IH]; intros asked P; inversion P as [|? a ? l A P']; subst.
    - exists [], 0%nat. split; [constructor|reflexivity].
    - destruct (IH _ P') as (read & depth & Q1 & Q2).
      destruct (page_type3_found decode (resolve decode file) ops X _ _ _ H2 A) as (r & d & Z1 & Z2).
      exists (r :: read), (depth + d)%nat. split; [constructor; assumption|]. intros n L. cbn [map SpecNav.all_of]. rewrite Z2 by lia. rewrite Q2 by lia. reflexivity. }
  destruct Y as (read & depth & Y1 & Y2). exists read, (depth + vt_depth tree)%nat. split; [exact Y1|].
  intros n L. unfold read_page_glyphs. rewrite V by lia. cbn [bind]. apply Y2. lia.
Qed.

(** ** Two Type 3 fonts, one with resources and one without, and a Type 1 font *)
Definition glyph_calls : list ModelContent.ccall := [ModelContent.CStartColorGlyph one; ModelContent.CSaveState; ModelContent.CSetLineWidth one; ModelContent.CXObject (lit "Im"); ModelContent.CRestoreState].
Definition glyph_own : Resources_calls := [Typed (Resources_x_objects [(lit "Im", OPrim (PRef 5))])].
Definition glyph_page : Resources_calls := [Typed (Resources_fonts [(lit "F1", OPrim (PRef 7)); (lit "F2", OPrim (PRef 8)); (lit "F3", OPrim (PRef 9))]);
  Typed (Resources_x_objects [(lit "Im", OPrim (PRef 6))])].
Definition glyph_sample : list doc_op := [
  DocTyped 2 (Ck_pages [Typed (Pages_kids [3]); Typed (Pages_resources glyph_page)]);
  DocTyped 3 (Ck_page [Typed (Page_contents 4)]);
  DocTyped 4 (Ck_stream (content_of []) []);
  DocTyped 5 (Ck_image_xobject [x00; xff] paint_image_calls);
  DocTyped 6 (Ck_image_xobject [x01] paint_image_calls);
  DocTyped 7 (Ck_type3_font [Typed (Type3Font_resources glyph_own); Typed (Type3Font_char_procs [(lit "a", 10); (lit "b", 4)])]);
  DocTyped 8 (Ck_type3_font [Typed (Type3Font_char_procs [(lit "a", 10)])]);
  DocTyped 9 (Ck_type1_font [Typed (Type1Font_base_font (lit "Courier"))]);
  DocTyped 10 (Ck_stream (content_of glyph_calls) []);
  DocCatalog 1 [Typed (Catalog_pages 2)]].
Definition glyph_views : view_tree := VtNode 2 (Some glyph_page) [VtPage 3 None (OneStream [])].
Definition glyph_painted (res : Resources_calls) (data : bytes) : asked_paintings := [PaintedImage [Setting (res, ModelContent.CSetLineWidth one)] (paint_image_calls, data)].
Definition glyph_asked : list (bytes * list (bytes * asked_paintings)) :=
  [(lit "F1", [(lit "a", glyph_painted glyph_own [x00; xff]); (lit "b", [])]); (lit "F2", [(lit "a", glyph_painted glyph_page [x01])]); (lit "F3", [])].
Example C95_case : views_written no_filter glyph_sample [Typed (Catalog_pages 2)] glyph_views /\
  Forall2 (page_glyphs_written no_filter glyph_sample) (vt_pages [] glyph_views) [glyph_asked].
Proof.
  assert (I5 : drawing_written no_filter glyph_sample 5 (DrawnImage paint_image_calls [x00; xff])).
  { eexists. split; [cbn [glyph_sample In]; tauto|]. split; [reflexivity|]. exists None. split; reflexivity. }
  assert (I6 : drawing_written no_filter glyph_sample 6 (DrawnImage paint_image_calls [x01])).
  { eexists. split; [cbn [glyph_sample In]; tauto|]. split; [reflexivity|]. exists None. split; reflexivity. }
  assert (C10 : content_written no_filter glyph_sample glyph_calls 10).
  { apply content_case; [cbn [glyph_sample In]; tauto|vm_compute; reflexivity|vm_compute; discriminate]. }
  assert (C4 : content_written no_filter glyph_sample [] 4).
  { apply content_case; [cbn [glyph_sample In]; tauto|vm_compute; reflexivity|vm_compute; discriminate]. }
  split.
  - split; [reflexivity|]. split; [eexists; split; [cbn [glyph_sample In]; tauto|split; reflexivity]|].
    split; [|exact Logic.I]. eexists; split; [cbn [glyph_sample In]; tauto|split; [reflexivity|]]. eexists; split; [reflexivity|exact C4].
  - constructor; [|constructor]. right. eexists. split; [reflexivity|]. repeat (apply Forall2_cons; [split; [reflexivity|]|]); try apply Forall2_nil.
    + exists 7. split; [reflexivity|]. left. eexists _, _, glyph_own, [(lit "Im", (5, DrawnImage paint_image_calls [x00; xff]))].
      split; [cbn [glyph_sample In]; tauto|]. split; [reflexivity|]. split; [left; reflexivity|]. split; [reflexivity|]. split; [right; reflexivity|].
      split; [apply Forall_cons; [exact I5|apply Forall_nil]|].
      apply Forall2_cons; [split; [reflexivity|]; exists glyph_calls; split; [exact C10|vm_compute; reflexivity]|].
      apply Forall2_cons; [split; [reflexivity|]; exists []; split; [exact C4|vm_compute; reflexivity]|apply Forall2_nil].
    + exists 8. split; [reflexivity|]. left. eexists _, _, glyph_page, [(lit "Im", (6, DrawnImage paint_image_calls [x01]))].
      split; [cbn [glyph_sample In]; tauto|]. split; [reflexivity|]. split; [right; split; reflexivity|]. split; [reflexivity|]. split; [right; reflexivity|].
      split; [apply Forall_cons; [exact I6|apply Forall_nil]|].
      apply Forall2_cons; [split; [reflexivity|]; exists glyph_calls; split; [exact C10|vm_compute; reflexivity]|apply Forall2_nil].
    + exists 9. split; [reflexivity|]. right. split; [|reflexivity]. left. eexists. split; [cbn [glyph_sample In]; tauto|reflexivity].
Qed.
Definition glyphs_seen (l : list (bytes * read_paintings)) : list (bytes * list bytes) :=
  map (fun e => (fst e, map (fun p => match p with PaintedImage _ (_, data) => data | _ => [] end) (snd e))) l.
Example C95_file : exists file, finished_document no_filter glyph_sample 1 file /\
  option_map (map (map (fun e => (fst e, glyphs_seen (snd e))))) (read_page_glyphs no_filter 3 file) =
  Some [[(lit "F1", [(lit "a", [[x00; xff]]); (lit "b", [])]); (lit "F2", [(lit "a", [[x01]])]); (lit "F3", [])]].
Proof.
  assert (X : match doc_run glyph_sample (pdf_with_settings true) with
              | Some p => match finish p with Some f => (blen f <=? 10 ^ 10, option_map (map (map (fun e => (fst e, glyphs_seen (snd e))))) (read_page_glyphs no_filter 3 f)) | None => (false, None) end
              | None => (false, None) end = (true, Some [[(lit "F1", [(lit "a", [[x00; xff]]); (lit "b", [])]); (lit "F2", [(lit "a", [[x01]])]); (lit "F3", [])]])) by (vm_compute; reflexivity).
  destruct (doc_run glyph_sample (pdf_with_settings true)) as [p|] eqn:R; [|discriminate].
  destruct (finish p) as [file|] eqn:F; [|discriminate]. exists file.
  split; [apply (finished_table _ _ _ _ true p); [|exact R|exact F| |apply Z.leb_le; exact (f_equal fst X)|reflexivity]|].
  - repeat (apply Forall_cons; [cbn [doc_op_ok op_typed]; repeat split|]); apply Forall_nil.
  - unfold ids_below; repeat constructor.
  - exact (f_equal snd X).
Qed.

Print Assumptions C95_glyph_drawings.
