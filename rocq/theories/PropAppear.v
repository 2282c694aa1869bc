(** C73: annotations and their appearances, from the trailer on. *)

From Coq Require Import ZArith List Bool Lia.
From Verif Require ModelCmap ModelContent SpecContent SpecForm PropForm.
From Verif Require Import Bytes ModelFloat ModelBuf ModelObject ModelChunk ModelColor ModelSmall ModelPdf ModelTw ModelEnums ModelRoles ModelTwArgs
  ModelTwFiles ModelTwGraphics ModelTwAnnot ModelTwForms ModelTwAttr ModelTwXObj ModelTwFonts ModelTwDoc ModelFontDesc ModelDoc
  SpecLex SpecObj SpecText SpecMeans SpecRenum SpecChunk SpecFile SpecPdf SpecTyped SpecColor SpecSmall SpecTw SpecEnums SpecRoles SpecTwArgs
  SpecTwFiles SpecTwGraphics SpecTwAnnot SpecTwForms SpecTwAttr SpecTwXObj SpecTwFonts SpecTwDoc SpecFontDesc SpecDoc SpecPages SpecExtract SpecNav SpecViews SpecPaint SpecAppear
  ProofBasic ProofTree ProofTyped ProofTw ProofTwDoc PropDoc PropPdf2 PropPages PropExtract PropNav PropPaint.
Import ListNotations.
Local Open Scope Z_scope.

Lemma positions_read l v : is_flags AnnotationFlags_pos l v -> flag_positions v = Some (asked_positions l).
Proof.
  intros (z & -> & Z0 & H). cbn [flag_positions]. f_equal. unfold asked_positions. apply filter_ext_in. intros p I.
  assert (1 <= p). { apply in_map_iff in I. destruct I as (k & <- & I). apply in_seq in I. lia. }
  apply eq_true_iff_eq. rewrite (H (p - 1)) by lia. rewrite existsb_exists.
  split; intros (f & I1 & I2); exists f; (split; [exact I1|]); lia.
Qed.
Definition look_depth (k : look) : nat := match asked_xobject k with Some d => drawing_depth d | None => 0%nat end.
(** From the calls to the entries. *)
Definition annotation_entries (calls : annotation_calls) : list entry_spec :=
  match calls with inl calls => writer_doc Annotation_head Annotation_doc calls | inr calls => writer_doc Field_head Field_doc calls end.
Lemma annotation_called_entries {A} k (P : A -> val -> Prop) sel calls a :
  bytes_eqb k (lit "Type") = false -> bytes_eqb k (lit "Subtype") = false ->
  (forall c, match c with Field_into_annotation _ => True | _ => entries_for k (Field_doc c) = [] end) ->
  (forall c, entries_for k (Annotation_doc c) = map (reading k P) (sel c)) ->
  annotation_called k sel calls a -> entries_for k (annotation_entries calls) = entry_or_none k (option_map P a).
Proof.
  intros T S H1 H2 H. destruct calls as [calls|calls]; cbn [annotation_called annotation_entries] in *.
  - apply (called_entries k sel P); [|exact H2|exact H]. unfold Annotation_head, entries_for. cbn [List.filter fst]. rewrite T. reflexivity.
  - apply (PropForm.field_entries k P (fun _ => []) sel); assumption.
Qed.
Ltac annotation_call H P := apply (annotation_called_entries _ P) in H;
  [cbn [option_map entry_or_none] in H|reflexivity|reflexivity|let c := fresh in intro c; destruct c; exact Logic.I || reflexivity|each_call].
Section Walk.
  Variables (decode : option val -> bytes -> option bytes) (resolved : Z -> option indirect) (ops : list doc_op).
  Hypothesis R : Forall (fun op => doc_op_reads op resolved) ops.

  Lemma entries_found id (calls : annotation_calls) :
    In (DocTyped id match calls with inl calls => Ck_annotation calls | inr calls => Ck_form_field calls end) ops ->
    exists d, resolved id = Some (IObj id 0 (VDict d)) /\ is_dict (annotation_entries calls) (VDict d).
  Proof using R.
    intro H. destruct calls; destruct (found resolved ops R _ _ H) as (i & E & v & -> & D); destruct (dict_is _ _ D) as [d ->];
      exists d; (split; [exact E|exact D]).
  Qed.
  Lemma state_found (l : list (bytes * (Z * xobject))) s : forall vs, Forall2 (fun e x => fst x = fst e /\ snd e (snd x)) (map (fun e => (fst e, is_ref (snd e))) (map (fun e => (fst e, fst (snd e))) l)) vs ->
    Forall (fun e => drawing_written decode ops (fst (snd e)) (snd (snd e))) l ->
    match (fix find (l : list (bytes * (Z * xobject))) := match l with [] => None | (n, (_, d)) :: r => if bytes_eqb s n then Some d else find r end) l with
    | None => lookup s vs = None
    | Some d => exists id, lookup s vs = Some (VRef id 0) /\ drawing_written decode ops id d
    end.
  Proof using Type.
    induction l as [|[n [id d]] l IH]; intros vs F W; inversion F as [|? [k v] ? vs' [A B] F']; subst; [reflexivity|].
    inversion W as [|? ? W1 W2]; subst. cbn [fst snd] in *. subst k. cbn [lookup]. destruct (bytes_eqb s n); [|exact (IH vs' F' W2)].
    unfold is_ref in B. subst v. exists id. split; [reflexivity|exact W1].
  Qed.
  Lemma appearance_found calls d k : is_dict (annotation_entries calls) (VDict d) -> look_written decode ops calls k ->
    match asked_xobject k with
    | None => appearance_stream resolved d = Some None
    | Some x => exists id, appearance_stream resolved d = Some (Some id) /\ drawing_written decode ops id x
    end.
  Proof using Type.
    intros D W. unfold appearance_stream.
    assert (Y : forall x, (exists acalls, annotation_called (lit "AP") <| Annotation_appearance c => c |> calls (Some acalls) /\
        called (lit "N") <| Appearance_normal x => x |> acalls x) ->
      exists v ap, lookup (lit "AP") d = Some v /\ object_dict resolved v = Some ap /\
        match x with None => lookup (lit "N") ap = None | Some x => exists w, lookup (lit "N") ap = Some w /\ AppearanceEntry_reads x w end).
    { intros x (acalls & H1 & H2). annotation_call H1 Appearance_reads. entries H2 Appearance_head Appearance_doc AppearanceEntry_reads.
      destruct (dict_lookup _ _ _ _ D H1) as (v & L & Q). destruct (dict_is _ _ Q) as [ap ->].
      exists (VDict ap), ap. split; [exact L|]. split; [reflexivity|]. destruct x as [x|]; cbn [entry_or_none] in H2.
      - exact (dict_lookup _ _ _ _ Q H2).
      - exact (dict_lookup_none _ _ _ Q H2). }
    destruct k as [|[id x]|l state]; cbn [look_written asked_xobject] in *.
    - destruct W as [W|W].
      + annotation_call W Appearance_reads. rewrite (dict_lookup_none _ _ _ D W). reflexivity.
      + destruct (Y _ W) as (v & ap & L & O & N). rewrite L, O. cbn [bind]. rewrite N. reflexivity.
    - destruct W as [W1 W2]. destruct (Y _ W1) as (v & ap & L & O & w & N & Q). rewrite L, O. cbn [bind]. rewrite N.
      cbn [AppearanceEntry_reads] in Q. unfold is_ref in Q. subst w. exists id. split; [reflexivity|exact W2].
    - destruct W as (W1 & W2 & W3). annotation_call W2 is_name. destruct (Y _ W1) as (v & ap & L & O & w & N & Q). rewrite L, O. cbn [bind]. rewrite N.
      cbn [AppearanceEntry_reads] in Q. destruct Q as (vs & -> & F). destruct state as [s|]; cbn [option_map entry_or_none] in W2.
      + destruct (dict_lookup _ _ _ _ D W2) as (v' & L' & Q'). unfold is_name in Q'. subst v'. rewrite L'.
        pose proof (state_found l s vs F W3) as Z. destruct (_ l) as [x|]; [|rewrite Z; reflexivity].
        destruct Z as (id & Z1 & Z2). exists id. split; [rewrite Z1; reflexivity|exact Z2].
      + rewrite (dict_lookup_none _ _ _ D W2). reflexivity.
  Qed.
  Lemma alone_found id d l : drawing_written decode ops id d -> ask_drawing d [] = Some l ->
    exists l', Forall2 painted_is l l' /\ forall n, (drawing_depth d <= n)%nat -> read_alone decode resolved n id = Some l'.
  Proof using R. intros W A. exact (drawings_found decode resolved ops R d id W (VDict [(lit "XObject", VDict [(lit "it", VRef id 0)])]) (lit "it") [] [] l eq_refl (Forall2_nil _) A). Qed.
  Lemma annotation_found a : annotation_written decode ops a -> look_sensible a ->
    exists r, annotation_is a r /\ forall n, (look_depth (an_look a) <= n)%nat -> read_annot decode resolved n (VRef (an_id a) 0) = Some r.
  Proof using R.
    intros (calls & H1 & H2 & H3 & H4 & H5) S. destruct (entries_found _ _ H1) as (d & E & D).
    annotation_call H3 is_rect. annotation_call H4 (is_flags AnnotationFlags_pos).
    assert (H2' : entries_for (lit "Subtype") (annotation_entries calls) = [(lit "Subtype", is_AnnotationType (an_type a))]).
    { destruct calls as [calls|calls]; cbn [annotation_typed annotation_entries] in *.
      - entries H2 Annotation_head Annotation_doc is_AnnotationType. exact H2.
      - exact (PropForm.annotation_entries _ _ H2). }
    clear H2. rename H2' into H2.
    destruct (dict_lookup _ _ _ _ D H2) as (t & L1 & m & -> & Q1). destruct (dict_lookup _ _ _ _ D H3) as (rv & L2 & Q2).
    pose proof (appearance_found calls d (an_look a) D H5) as AF.
    assert (F : optional (lit "F") d flag_positions = Some (option_map asked_positions (an_flags a))).
    { apply (optional_found _ _ _ _ _ _ D H4). destruct (an_flags a) as [l|]; [exact (positions_read l)|exact I]. }
    assert (P : exists look, match asked_xobject (an_look a), look with
        | None, None => True
        | Some d, Some l' => exists l, ask_drawing d [] = Some l /\ Forall2 painted_is l l'
        | _, _ => False
        end /\ forall n, (look_depth (an_look a) <= n)%nat ->
        bind (appearance_stream resolved d) (fun look => match look with None => Some None | Some id => option_map Some (read_alone decode resolved n id) end) = Some look).
    { unfold look_sensible in S. unfold look_depth. destruct (asked_xobject (an_look a)) as [x|].
      - destruct AF as (id & A1 & A2). destruct (ask_drawing x []) as [l|] eqn:Ax; [|congruence].
        destruct (alone_found id x l A2 Ax) as (l' & B1 & B2). exists (Some l'). split; [exists l; split; [reflexivity|exact B1]|].
        intros n Hn. rewrite A1. cbn [bind]. rewrite (B2 n Hn). reflexivity.
      - exists None. split; [exact I|]. intros n _. rewrite AF. reflexivity. }
    destruct P as (look & P1 & P2).
    exists (mkAnnotationRead (an_type a) rv (asked_positions (match an_flags a with Some l => l | None => [] end)) look).
    split; [split; [reflexivity|split; [exact Q2|split; [reflexivity|exact P1]]]|]. intros n Hn.
    unfold read_annot. cbn [object_dict]. rewrite E. cbn [bind]. unfold required. rewrite L1. cbn [bind read_name]. rewrite Q1. cbn [bind]. rewrite L2. cbn [bind].
    rewrite F. cbn [bind]. specialize (P2 n Hn). destruct (appearance_stream resolved d) as [o|]; [|discriminate]. cbn [bind] in *. rewrite P2. cbn [bind].
    destruct (an_flags a); reflexivity.
  Qed.
  Lemma page_annots_found page l d : page_annotations_written decode ops page l -> Forall look_sensible l -> resolved page = Some (IObj page 0 (VDict d)) ->
    exists rs depth, Forall2 annotation_is l rs /\ forall n, (depth <= n)%nat -> read_page_annots decode resolved n d = Some rs.
  Proof using R.
    intros [(calls & H1 & H2) W] S E. destruct (found resolved ops R _ _ H1) as (i & E' & v & -> & D). rewrite E in E'. apply some_inj in E'.
    assert (v = VDict d) as -> by congruence. unfold read_page_annots. destruct H2 as [[E0 H2]|H2]; entries H2 Page_head Page_doc is_refs.
    - destruct l; [|discriminate]. exists [], 0%nat. split; [constructor|]. intros n _. rewrite (dict_lookup_none _ _ _ D H2). reflexivity.
    - destruct (dict_lookup _ _ _ _ D H2) as (v & L & vs & -> & Q). rewrite L. apply refs_found in Q. subst vs. clear - R W S.
      induction W as [|a l H W IH]; [exists [], 0%nat; split; [constructor|reflexivity]|]. inversion S as [|? ? S1 S2]; subst.
      destruct (annotation_found a H S1) as (r & A1 & A2). destruct (IH S2) as (rs & depth & B1 & B2).
      exists (r :: rs), (look_depth (an_look a) + depth)%nat. split; [constructor; assumption|]. intros n Hn. cbn [map all_of].
      rewrite A2 by lia. rewrite B2 by lia. reflexivity.
  Qed.
End Walk.

(** A reader that starts from the trailer finds for every page its annotations in order, each with its kind, rectangle and flags, and what its
    normal appearance (that of its state, if there are several) paints. *)
Theorem C73_annotations : forall decode ops cat file calls tree annots,
  finished_document decode ops cat file -> In (DocCatalog cat calls) ops ->
  pages_written ops calls tree -> Forall2 (page_annotations_written decode ops) (it_pages tree) annots -> Forall (Forall look_sensible) annots ->
  exists read depth, Forall2 (Forall2 annotation_is) annots read /\
    forall n, (depth <= n)%nat -> read_annotations decode n file = Some read.
Proof.
  intros decode ops cat file calls tree annots D I P An S.
  destruct (document_facts _ _ _ _ D) as [X _]. destruct (pages_found _ _ _ _ _ _ D I P) as (ds & F & E).
  assert (Y : exists read depth, Forall2 (Forall2 annotation_is) annots read /\ forall n, (depth <= n)%nat ->
    all_of (map (fun p => read_page_annots decode (resolve decode file) n (snd p)) ds) = Some read).
  { clear - F An S X. revert annots An S. induction F as [|id e ids ds [_ F1] F IH]; intros annots An S; inversion An as [|? l ? ls A1 A2]; subst.
    - exists [], 0%nat. split; [constructor|reflexivity].
    - inversion S as [|? ? S1 S2]; subst. destruct (IH ls A2 S2) as (read & depth & B1 & B2).
      destruct (page_annots_found decode _ ops X id l (snd e) A1 S1 F1) as (rs & dp & C1 & C2).
      exists (rs :: read), (dp + depth)%nat. split; [constructor; assumption|]. intros n Hn. cbn [map all_of]. rewrite C2 by lia. rewrite B2 by lia. reflexivity. }
  destruct Y as (read & depth & Y1 & Y2). exists read, (it_depth tree + depth)%nat. split; [exact Y1|]. intros n Hn.
  unfold read_annotations. rewrite E by lia. cbn [bind]. apply Y2. lia.
Qed.

(** ** A concrete case: a check box that is on, and a square without appearance. *)
Definition mark_on : list ModelContent.ccall := [ModelContent.CSetFillGray one; paint_rect; ModelContent.CFillNonzero].
Definition mark_calls : FormXObject_calls := [STyped (FormXObject_bbox (mkRect f32_zero f32_zero one one)); STyped (FormXObject_resources [])].
Definition square : rect := mkRect f32_zero f32_zero one one.
Definition annots_sample : list doc_op := [
  DocTyped 2 (Ck_pages [Typed (Pages_kids [3])]);
  DocTyped 3 (Ck_page [Typed (Page_annotations [4; 5])]);
  DocTyped 4 (Ck_form_field [Typed (Field_partial_name [97]); Typed (Field_into_annotation [Typed (Annotation_rect square);
    Typed (Annotation_flags [AnnotationFlags_Print; AnnotationFlags_Hidden]);
    Typed (Annotation_appearance [Typed (Appearance_normal (AppearanceEntry_streams [(lit "Off", 7); (lit "Yes", 6)]))]);
    Typed (Annotation_appearance_state (lit "Yes"))])]);
  DocTyped 5 (Ck_annotation [Typed (Annotation_rect square); Typed (Annotation_subtype AnnotationType_Square)]);
  DocTyped 6 (Ck_form_xobject (content_of mark_on) mark_calls);
  DocTyped 7 (Ck_form_xobject (content_of []) mark_calls);
  DocCatalog 1 [Typed (Catalog_pages 2)]].
Definition annots_asked : list annotation_asked := [
  mkAnnotation 4 AnnotationType_Widget square (Some [AnnotationFlags_Print; AnnotationFlags_Hidden])
    (StateLooks [(lit "Off", (7, DrawnForm mark_calls [] [] [])); (lit "Yes", (6, DrawnForm mark_calls [] [] mark_on))] (Some (lit "Yes")));
  mkAnnotation 5 AnnotationType_Square square None NoLook].
Example C73_case : let catalog := [Typed (Catalog_pages 2)] in
  pages_written annots_sample catalog (ItNode 2 [ItPage 3]) /\ Forall2 (page_annotations_written no_filter annots_sample) [3] [annots_asked] /\
  Forall (Forall look_sensible) [annots_asked] /\
  asked_positions [AnnotationFlags_Print; AnnotationFlags_Hidden] = [2; 3] /\
  ask_drawing (DrawnForm mark_calls [] [] mark_on) [] =
    Some [PaintedPath [Setting ([], ModelContent.CSetFillGray one); InForm mark_calls] [([], paint_rect)] ([], ModelContent.CFillNonzero)].
Proof.
  assert (G : forall id l, In (DocTyped id (Ck_form_xobject (content_of l) mark_calls)) annots_sample -> forallb (SpecContent.ccall_ok false) l = true ->
    (exists c, ModelContent.content_run l (ModelContent.content_with_settings false) = Some c) ->
    drawing_written no_filter annots_sample id (DrawnForm mark_calls [] [] l)).
  { intros id l H O [c C]. split; [|split; [left; split; reflexivity|exact I]]. exists (content_of l), false, c. split; [exact H|]. split; [reflexivity|]. split; [reflexivity|].
    split; [exact O|]. split; [exact C|]. exists None. split; [reflexivity|]. unfold content_of. rewrite C. reflexivity. }
  split; [|split; [|split; [|split; [reflexivity|vm_compute; reflexivity]]]].
  - split; [reflexivity|]. split; [eexists; split; [cbn [annots_sample In]; tauto|reflexivity]|]. split; [eexists; cbn [annots_sample In]; tauto|exact I].
  - constructor; [|constructor]. split; [eexists; split; [cbn [annots_sample In]; tauto|right; reflexivity]|].
    apply Forall_cons; [|apply Forall_cons; [|apply Forall_nil]].
    + eexists (inr _). split; [cbn [annots_sample In an_id]; tauto|]. split; [reflexivity|]. split; [reflexivity|]. split; [reflexivity|].
      split; [eexists; split; reflexivity|]. split; [reflexivity|]. apply Forall_cons; [|apply Forall_cons; [|apply Forall_nil]].
      * apply G; [cbn [annots_sample In fst snd]; tauto|reflexivity|]. eexists. reflexivity.
      * apply G; [cbn [annots_sample In fst snd]; tauto|vm_compute; reflexivity|].
        destruct (ModelContent.content_run mark_on (ModelContent.content_with_settings false)) as [c|] eqn:E; [eexists; reflexivity|]. vm_compute in E. discriminate.
    + eexists (inl _). split; [cbn [annots_sample In an_id]; tauto|]. split; [reflexivity|]. split; [reflexivity|]. split; [reflexivity|].
      left. reflexivity.
  - apply Forall_cons; [|apply Forall_nil]. apply Forall_cons; [|apply Forall_cons; [exact I|apply Forall_nil]]. vm_compute. discriminate.
Qed.
Definition annots_seen (l : option (list (list annotation_read))) :=
  match l with
  | Some [[a; b]] => Some (ar_type a, ar_flags a, option_map (fun l => match l with [PaintedPath [_; _] [_] (_, (_, f))] => Some f | _ => None end) (ar_look a),
                           ar_type b, ar_flags b, match ar_look b with None => true | Some _ => false end)
  | _ => None
  end.
(** And the file is really read so. *)
Example C73_file : exists file, finished_document no_filter annots_sample 1 file /\
  annots_seen (read_annotations no_filter 2 file) = Some (AnnotationType_Widget, [2; 3], Some (Some (lit "f")), AnnotationType_Square, [], true).
Proof.
  assert (X : match doc_run annots_sample (pdf_with_settings true) with
              | Some p => match finish p with Some f => (blen f <=? 10 ^ 10, annots_seen (read_annotations no_filter 2 f)) | None => (false, None) end
              | None => (false, None) end =
    (true, Some (AnnotationType_Widget, [2; 3], Some (Some (lit "f")), AnnotationType_Square, [], true))) by (vm_compute; reflexivity).
  destruct (doc_run annots_sample (pdf_with_settings true)) as [p|] eqn:R; [|discriminate].
  destruct (finish p) as [file|] eqn:F; [|discriminate]. exists file.
  split; [apply (finished_table _ _ _ _ true p); [|exact R|exact F| |apply Z.leb_le; exact (f_equal fst X)|reflexivity]|].
  - repeat (apply Forall_cons; [cbn [doc_op_ok op_typed]; repeat split|]); apply Forall_nil.
  - unfold ids_below; repeat constructor.
  - exact (f_equal snd X).
Qed.

Print Assumptions C73_annotations.
