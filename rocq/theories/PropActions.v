(** C84: actions and events, from the trailer on. *)

From Coq Require Import ZArith List Bool Lia.
From Verif Require ModelCmap ModelContent SpecContent SpecForm PropForm SpecAppear PropAppear.
From Verif Require Import Bytes ModelFloat ModelBuf ModelObject ModelChunk ModelColor ModelSmall ModelPdf ModelTw ModelEnums ModelRoles ModelTwArgs
  ModelTwFiles ModelTwGraphics ModelTwAnnot ModelTwForms ModelTwAttr ModelTwXObj ModelTwFonts ModelTwDoc ModelFontDesc ModelDoc
  SpecLex SpecObj SpecText SpecMeans SpecRenum SpecChunk SpecFile SpecPdf SpecTyped SpecColor SpecSmall SpecTw SpecEnums SpecRoles SpecTwArgs
  SpecTwFiles SpecTwGraphics SpecTwAnnot SpecTwForms SpecTwAttr SpecTwXObj SpecTwFonts SpecTwDoc SpecFontDesc SpecDoc SpecPages SpecExtract SpecNav SpecViews SpecActions
  ProofBasic ProofTree ProofTyped ProofTw ProofTwDoc PropDoc PropPdf2 PropPages PropExtract PropNav PropTagged PropInfo PropPaint PropFunctions.
Import ListNotations.
Local Open Scope Z_scope.

Lemma bool_found b v : is_bool b v -> read_boolean v = Some b.
Proof. intros ->. reflexivity. Qed.
Lemma str_found s v : is_str s v -> read_string v = Some s.
Proof. intros ->. reflexivity. Qed.
Lemma id_found i v : is_ref i v -> read_id v = Some i.
Proof. intros ->. reflexivity. Qed.
Lemma enum_found {E} (table : list (bytes * E)) x v : is_named table x v -> read_named table v = Some x.
Proof. intro H. destruct (named_is _ _ _ H) as (n & N1 & N2). unfold read_named. rewrite N1. exact N2. Qed.
Lemma numbered_found {E} (table : list (Z * E)) x v : is_numbered table x v -> read_numbered table v = Some x.
Proof. intros (n & -> & H). exact H. Qed.
Lemma list_found {A B} (P : A -> val -> Prop) (f : val -> option B) (g : A -> B) : (forall a v, P a v -> f v = Some (g a)) ->
  forall l v, is_array_of P l v -> read_list f v = Some (map g l).
Proof.
  intros H l v (vs & -> & F). cbn [read_list]. induction F as [|a v l vs Q F IH]; [reflexivity|]. cbn [map all_of]. rewrite (H a v Q), IH. reflexivity.
Qed.
Lemma part_found {C A B} k (Q : C -> val -> Prop) (f : val -> option B) (P : C -> A -> Prop) (given : option C -> Prop) xs d (a : option A) (x : option B) :
  is_dict xs (VDict d) -> (forall c, given c -> entries_for k xs = entry_or_none k (option_map Q c)) -> part_given given P a ->
  (forall c a' v, a = Some a' -> P c a' -> Q c v -> exists b, x = Some b /\ f v = Some b) -> (a = None -> x = None) ->
  optional k d f = Some x.
Proof.
  intros D E W H N. destruct a as [a|]; cbn [part_given] in W.
  - destruct W as (c & G & W). specialize (E _ G). cbn [option_map entry_or_none] in E. unfold optional.
    destruct (dict_lookup _ _ _ _ D E) as (v & L & V). rewrite L. destruct (H c a v eq_refl W V) as (b & -> & ->). reflexivity.
  - rewrite (N eq_refl). specialize (E _ W). cbn [option_map entry_or_none] in E. unfold optional. rewrite (dict_lookup_none _ _ _ D E). reflexivity.
Qed.
Lemma part_same {C A} k (Q : C -> val -> Prop) (f : val -> option A) (P : C -> A -> Prop) (given : option C -> Prop) xs d (a : option A) :
  is_dict xs (VDict d) -> (forall c, given c -> entries_for k xs = entry_or_none k (option_map Q c)) -> part_given given P a ->
  (forall c a' v, P c a' -> Q c v -> f v = Some a') -> optional k d f = Some a.
Proof.
  intros D E W H. apply (part_found k Q f P given xs d a a D E W); [|auto]. intros c a' v -> W' V. exists a'. split; [reflexivity|exact (H c a' v W' V)].
Qed.
Lemma positions_read l v : is_flags FormActionFlags_pos l v -> SpecAppear.flag_positions v = Some (form_positions l).
Proof.
  intros (z & -> & Z0 & H). cbn [SpecAppear.flag_positions]. f_equal. unfold form_positions. apply filter_ext_in. intros p I.
  assert (1 <= p). { apply in_map_iff in I. destruct I as (k & <- & I). apply in_seq in I. lia. }
  apply eq_true_iff_eq. rewrite (H (p - 1)) by lia. rewrite existsb_exists.
  split; intros (f & I1 & I2); exists f; (split; [exact I1|]); lia.
Qed.
(** The keys of the events. *)
Lemma event_key c e acalls table : event_of c = Some (e, acalls) -> In e (map snd table) ->
  (table = field_events \/ table = page_events \/ table = document_events) ->
  exists k, AdditionalActions_doc c = [(k, Action_reads acalls)] /\ by_name k table = Some e.
Proof.
  intros E I T. destruct c; cbn [event_of] in E; try discriminate E; apply some_inj in E; injection E as <- <-; eexists; (split; [reflexivity|]);
    destruct T as [-> |[-> | ->]]; cbn [In map snd field_events page_events document_events] in I; try reflexivity; exfalso;
    repeat (destruct I as [I|I]; [discriminate I|]); destruct I.
Qed.

Section Walk.
  Variables (decode : option val -> bytes -> option bytes) (resolved : Z -> option indirect) (ops : list doc_op).
  Hypothesis R : Forall (fun op => doc_op_reads op resolved) ops.

  Definition embedded_reads (x : Z + Z) : val -> Prop :=
    match x with inl id => is_dict [(lit "F", is_ref id)] | inr id => is_dict [(lit "F", is_ref id); (lit "UF", is_ref id)] end.
  Lemma date_part_found xs d k (given : option date -> Prop) r : is_dict xs (VDict d) ->
    (forall c, given c -> entries_for k xs = entry_or_none k (option_map is_date_of c)) -> part_given given date_is r -> optional k d SpecInfo.read_date = Some r.
  Proof using Type.
    intros D E W. apply (part_same k is_date_of _ date_is given xs d r D E W). intros c a v -> V. exact (date_found c v V).
  Qed.
  Lemma params_found calls p v : params_written calls p -> EmbeddingParams_reads calls v -> read_params resolved v = Some p.
  Proof using Type.
    intros (H1 & H2 & H3 & H4) Q. destruct (dict_is _ _ Q) as [d ->]. destruct p as [size created modified checksum]. cbn [fp_size fp_created fp_modified fp_checksum] in *.
    entries H1 EmbeddingParams_head EmbeddingParams_doc is_int. entries H4 EmbeddingParams_head EmbeddingParams_doc is_str.
    unfold read_params. cbn [object_dict bind].
    rewrite (same_found _ is_int _ _ d size Q H1) by (intros a v ->; reflexivity). cbn [bind].
    rewrite (date_part_found _ d _ _ created Q) with (2 := H2) by (intros c H; entries H EmbeddingParams_head EmbeddingParams_doc is_date_of; exact H). cbn [bind].
    rewrite (date_part_found _ d _ _ modified Q) with (2 := H3) by (intros c H; entries H EmbeddingParams_head EmbeddingParams_doc is_date_of; exact H). cbn [bind].
    rewrite (same_found _ is_str _ _ d checksum Q H4 str_found). reflexivity.
  Qed.
  Lemma embedded_found e x : embedded_written decode ops e x -> read_embedded decode resolved (match e with inl id | inr id => id end) = Some x.
  Proof using R.
    intros (data & calls & H1 & H2 & H3 & H4). set (id := match e with inl id | inr id => id end) in *. clearbody id. destruct x as [content type params]. cbn [em_content em_type em_params] in *.
    sentries H3 EmbeddedFile_head EmbeddedFile_doc is_name.
    unfold read_embedded. rewrite (embedded_stream decode resolved ops R _ data calls content H1 H2). destruct (found resolved ops R _ _ H1) as (i & E & vs & -> & D). rewrite E. cbn [bind].
    pose proof (length_before _ _ (blen data) D) as D'.
    rewrite (same_found (lit "Subtype") is_name read_name _ _ type D' H3) by (intros a v ->; reflexivity). cbn [bind].
    rewrite (part_same (lit "Params") EmbeddingParams_reads _ params_written _ _ _ params D') with (2 := H4); [reflexivity| |exact params_found].
    intros c H. sentries H EmbeddedFile_head EmbeddedFile_doc EmbeddingParams_reads. exact H.
  Qed.
  Lemma file_found calls f v : file_written decode ops calls f -> FileSpec_reads calls v -> read_file_of decode resolved v = Some f.
  Proof using R.
    intros (H1 & H2 & H3 & H5 & H6 & H7 & H4) Q. destruct (dict_is _ _ Q) as [d ->]. destruct f as [name path description system volatile kind content].
    cbn [fi_name fi_path fi_description fi_system fi_volatile fi_kind fi_embedded] in *.
    entries H1 FileSpec_head FileSpec_doc is_text. entries H2 FileSpec_head FileSpec_doc is_str. entries H3 FileSpec_head FileSpec_doc is_textlike.
    entries H5 FileSpec_head FileSpec_doc is_name. entries H6 FileSpec_head FileSpec_doc is_bool. entries H7 FileSpec_head FileSpec_doc is_AssociationKind.
    unfold read_file_of. cbn [object_dict bind].
    rewrite (same_found _ is_text _ _ d name Q H1 text_found). cbn [bind].
    rewrite (same_found _ is_str _ _ d path Q H2 str_found). cbn [bind].
    rewrite (text_option_found _ d _ _ Q H3). cbn [bind].
    rewrite (same_found _ is_name _ _ d system Q H5) by (intros a v ->; reflexivity). cbn [bind].
    rewrite (same_found _ is_bool _ _ d volatile Q H6 bool_found). cbn [bind].
    rewrite (same_found _ is_AssociationKind _ _ d kind Q H7 (enum_found _)). cbn [bind].
    rewrite (part_same (lit "EF") embedded_reads _ (embedded_written decode ops) _ _ d content Q) with (2 := H4); [reflexivity| |].
    - intros c H. entries H FileSpec_head FileSpec_doc embedded_reads. exact H.
    - intros c x v W E. cbv beta.
      assert (X : exists files, v = VDict files /\ lookup (lit "F") files = Some (VRef (match c with inl id | inr id => id end) 0)).
      { destruct c as [id|id]; cbn [embedded_reads] in E; destruct (dict_is _ _ E) as [files ->]; exists files; (split; [reflexivity|]);
          destruct (dict_first _ _ _ _ E) as (y & L2 & P); rewrite L2; unfold is_ref in P; subst y; reflexivity. }
      destruct X as (files & -> & L). cbn [object_dict bind]. unfold required. rewrite L. cbn [bind read_id].
      exact (embedded_found c x W).
  Qed.
  Lemma clip_found calls c v : clip_written decode ops calls c -> MediaClip_reads calls v -> read_clip decode resolved v = Some c.
  Proof using R.
    intros (H1 & H2 & H3 & H4 & H5 & H6) Q. destruct (dict_is _ _ Q) as [d ->]. destruct c as [type name data mime permissions alternatives]. cbn [cl_type cl_name cl_data cl_mime cl_permissions cl_alternatives] in *.
    entries H1 MediaClip_head MediaClip_doc is_MediaClipType. entries H2 MediaClip_head MediaClip_doc is_textlike.
    entries H4 MediaClip_head MediaClip_doc is_str. entries H6 MediaClip_head MediaClip_doc (is_array_of is_text).
    unfold read_clip. cbn [object_dict bind].
    rewrite (same_found _ is_MediaClipType _ _ d type Q H1 (enum_found _)). cbn [bind].
    rewrite (text_option_found _ d _ _ Q H2). cbn [bind].
    rewrite (part_same (lit "D") FileSpec_reads _ (file_written decode ops) _ _ d data Q) with (2 := H3);
      [|intros c H; entries H MediaClip_head MediaClip_doc FileSpec_reads; exact H|exact file_found]. cbn [bind].
    rewrite (same_found _ is_str _ _ d mime Q H4 str_found). cbn [bind].
    rewrite (part_same (lit "P") MediaPermissions_reads _ _ _ _ d permissions Q) with (2 := H5).
    2:{ intros c H; entries H MediaClip_head MediaClip_doc MediaPermissions_reads; exact H. }
    2:{ intros c a v W V. destruct (dict_is _ _ V) as [p ->]. cbn [object_dict bind]. entries W MediaPermissions_head MediaPermissions_doc is_TempFileType.
        apply (same_found _ is_TempFileType _ _ p a V W). intros t x (n & -> & E). exact E. }
    cbn [bind]. rewrite (same_found _ (is_array_of is_text) _ _ d alternatives Q H6); [reflexivity|].
    intros l x E. rewrite (list_found is_text _ (fun t => t) text_found l x E). rewrite map_id. reflexivity.
  Qed.
  Lemma rendition_found calls r v : rendition_written decode ops calls r -> Rendition_reads calls v -> read_rendition decode resolved v = Some r.
  Proof using R.
    intros (H1 & H2 & H3 & H4) Q. destruct (dict_is _ _ Q) as [d ->]. destruct r as [type name c controls]. cbn [re_type re_name re_clip re_controls] in *.
    entries H1 Rendition_head Rendition_doc is_RenditionType. entries H2 Rendition_head Rendition_doc is_textlike.
    unfold read_rendition. cbn [object_dict bind].
    rewrite (same_found _ is_RenditionType _ _ d type Q H1 (enum_found _)). cbn [bind].
    rewrite (text_option_found _ d _ _ Q H2). cbn [bind].
    rewrite (part_same (lit "C") MediaClip_reads _ (clip_written decode ops) _ _ d c Q) with (2 := H3);
      [|intros c' H; entries H Rendition_head Rendition_doc MediaClip_reads; exact H|exact clip_found]. cbn [bind].
    rewrite (part_same (lit "P") MediaPlayParams_reads _ _ _ _ d controls Q) with (2 := H4); [reflexivity| |].
    - intros c' H; entries H Rendition_head Rendition_doc MediaPlayParams_reads; exact H.
    - intros c' a v W V. destruct (dict_is _ _ V) as [p ->]. cbn [object_dict bind].
      entries W MediaPlayParams_head MediaPlayParams_doc (fun b => is_dict [(lit "C", is_bool b)]).
      apply (same_found _ (fun b => is_dict [(lit "C", is_bool b)]) _ _ p a V W). intros b x E. destruct (dict_is _ _ E) as [be ->]. cbn [object_dict bind].
      unfold required. destruct (dict_first _ _ _ _ E) as (y & L & P). rewrite L. exact (bool_found b y P).
  Qed.
  Definition script_reads (s : list Z + Z) : val -> Prop := match s with inl t => is_text t | inr id => is_ref id end.
  Lemma script_found s r v : script_given decode ops s r -> script_reads s v -> read_script decode resolved v = Some r.
  Proof using R.
    intros W Q. destruct s as [t|id], r as [t'|content]; try contradiction; cbn [script_given script_reads] in *.
    - subst t'. destruct Q as (s & -> & H). unfold read_script. cbn [read_textstring]. rewrite H. reflexivity.
    - unfold is_ref in Q. subst v. destruct W as (data & scalls & S1 & S2). cbn [read_script].
      rewrite (stream_found decode resolved ops R _ data scalls content S1 S2). reflexivity.
  Qed.
  Lemma fields_found calls l v : fields_given calls l -> Fields_reads calls v -> read_list read_field_of v = Some l.
  Proof using Type.
    intros (cs & -> & ->) (vs & -> & F). cbn [read_list].
    assert (X : forall P Q xs ys, Forall2 (fun (P : val -> Prop) v => P v) (map P xs) ys -> (forall (a : Z + list Z) v, P a v -> read_field_of v = Some (Q a)) ->
      all_of (map read_field_of ys) = Some (map Q xs)).
    { intros P Q xs. induction xs as [|x xs IH]; intros ys F' H; inversion F'; subst; [reflexivity|]. cbn [map all_of]. erewrite H by eassumption. erewrite IH by eassumption. reflexivity. }
    set (items := flat_map _ cs). rewrite <- (map_id items). apply X with (P := fun a => match a with inl id => is_ref id | inr t => is_text t end).
    - assert (Y : map (fun a : Z + list Z => match a with inl id => is_ref id | inr t => is_text t end) items = flat_map (item_doc Fields_doc) (map TypedItem cs)); [|rewrite Y; exact F].
      unfold items. clear F X items. induction cs as [|c cs IH]; [reflexivity|]. cbn [map flat_map item_doc]. rewrite map_app, IH. f_equal.
      destruct c; cbn [Fields_doc map]; try reflexivity; rewrite map_map; reflexivity.
    - intros [id|t] x E; [unfold is_ref in E; subst x; reflexivity|]. destruct E as (s & -> & H). unfold read_field_of. cbn [read_textstring]. rewrite H. reflexivity.
  Qed.

  Variables (pages : list Z) (named : list (bytes * explicit_place)) (dests : option (list (bytes * val))).
  Hypothesis K : dests_known named dests.
  Lemma action_found calls a x v : action_written decode ops calls a -> Action_reads calls v -> asked_action pages named a = Some x ->
    read_action decode resolved pages dests v = Some x.
  Proof using R K.
    intros (H1 & H2 & H3 & H4 & H5 & H6 & H7 & H8 & H9 & H10 & H11 & H12) Q A. destruct (dict_is _ _ Q) as [d ->].
    destruct a as [type place file window uri map_ script fields flags operation annotation rendition].
    cbn [ac_type ac_place ac_file ac_new_window ac_uri ac_map ac_script ac_fields ac_flags ac_operation ac_annotation ac_rendition] in *.
    entries H1 Action_head Action_doc is_ActionType. entries H4 Action_head Action_doc is_bool. entries H5 Action_head Action_doc is_str.
    entries H6 Action_head Action_doc is_bool. entries H10 Action_head Action_doc is_RenditionOperation. entries H11 Action_head Action_doc is_ref.
    unfold read_action. cbn [object_dict bind]. unfold required at 1. destruct (dict_lookup _ _ _ _ Q H1) as (t & L & T). rewrite L. cbn [bind].
    rewrite (enum_found _ _ _ T). cbn [bind]. unfold asked_action in A. cbn [ac_type ac_place ac_file ac_new_window ac_uri ac_map ac_script ac_fields ac_flags ac_operation ac_annotation ac_rendition] in A.
    destruct (match place with None => Some None | Some p => option_map Some (asked_place pages named p) end) as [p|] eqn:Ep; [|discriminate A].
    cbn [option_map] in A. apply some_inj in A. subst x.
    assert (P : match type with ActionType_GoTo => optional (lit "D") d (read_place pages dests) | _ => Some None end = Some p).
    { destruct type; try (subst place; exact Ep). entries H2 Action_head Action_doc place_argument_reads.
      apply (optional_found _ _ _ _ _ p Q H2). destruct place as [pl|]; cbn [option_map].
      - destruct (asked_place pages named pl) as [y|] eqn:Ey; [|discriminate]. apply some_inj in Ep. subst p. intros v Q'.
        exact (place_found pages named dests pl y v K Q' Ey).
      - apply some_inj in Ep. subst p. exact I. }
    rewrite P. clear P H2. cbn [bind].
    rewrite (part_same (lit "F") FileSpec_reads _ (file_written decode ops) _ _ d file Q) with (2 := H3);
      [|intros c H; entries H Action_head Action_doc FileSpec_reads; exact H|exact file_found]. cbn [bind].
    rewrite (same_found _ is_bool _ _ d window Q H4 bool_found). cbn [bind].
    rewrite (same_found _ is_str _ _ d uri Q H5 str_found). cbn [bind].
    rewrite (same_found _ is_bool _ _ d map_ Q H6 bool_found). cbn [bind].
    rewrite (part_same (lit "JS") script_reads _ (script_given decode ops) _ _ d script Q) with (2 := H7);
      [|intros c H; entries H Action_head Action_doc script_reads; exact H|exact script_found]. cbn [bind].
    rewrite (part_same (lit "Fields") Fields_reads _ fields_given _ _ d fields Q) with (2 := H8);
      [|intros c H; entries H Action_head Action_doc Fields_reads; exact H|exact fields_found]. cbn [bind].
    rewrite (part_same (lit "Flags") (is_flags FormActionFlags_pos) _ _ _ _ d flags Q) with (2 := H9);
      [|intros c H; entries H Action_head Action_doc (is_flags FormActionFlags_pos); exact H|intros c a v -> E; exact (positions_read c v E)]. cbn [bind].
    rewrite (same_found _ is_RenditionOperation _ _ d operation Q H10 (numbered_found _)). cbn [bind].
    rewrite (id_option_found _ d _ annotation Q H11). cbn [bind].
    rewrite (part_same (lit "R") Rendition_reads _ (rendition_written decode ops) _ _ d rendition Q) with (2 := H12);
      [|intros c H; entries H Action_head Action_doc Rendition_reads; exact H|exact rendition_found]. reflexivity.
  Qed.
  Lemma events_found table calls l x v : (table = field_events \/ table = page_events \/ table = document_events) ->
    events_given decode ops table calls l -> AdditionalActions_reads calls v -> asked_events pages named l = Some x ->
    read_events decode resolved pages dests table v = Some x.
  Proof using R K.
    intros T W Q A. destruct Q as (d & -> & F). unfold read_events. cbn [object_dict bind]. unfold writer_doc, AdditionalActions_head in F. cbn [app] in F.
    unfold asked_events in A. revert d x F A. induction W as [|c [e a] calls l (c' & acalls & -> & E & I & W) _ IH]; intros d x F A; cbn [fst snd] in *.
    - inversion F; subst. exact A.
    - destruct (event_key c' e acalls table E I T) as (k & E1 & E2). cbn [flat_map raw_doc] in F. rewrite E1 in F. cbn [app] in F.
      inversion F as [|? [k' v] ? d' [G1 G2] F']; subst. cbn [fst snd] in *. subst k'. cbn [map all_of fst snd] in A. cbn [map all_of fst snd]. rewrite E2. cbn [bind].
      destruct (asked_action pages named a) as [y|] eqn:Ey; [|discriminate A]. rewrite (action_found acalls a y v W G2 Ey). cbn [option_map] in *.
      destruct (all_of (map _ l)) as [ys|]; [|discriminate A]. rewrite (IH d' ys F' eq_refl). exact A.
  Qed.
  Lemma events_in_found table (given : option AdditionalActions_calls -> Prop) l x xs d : (table = field_events \/ table = page_events \/ table = document_events) ->
    is_dict xs (VDict d) -> (forall c, given c -> entries_for (lit "AA") xs = entry_or_none (lit "AA") (option_map AdditionalActions_reads c)) ->
    events_written decode ops table given l -> asked_events pages named l = Some x -> events_in decode resolved pages dests table d = Some x.
  Proof using R K.
    intros T D E W A. unfold events_in, optional. destruct W as [[-> W]|(calls & W1 & W2)].
    - specialize (E _ W). rewrite (dict_lookup_none _ _ _ D E). exact A.
    - specialize (E _ W1). cbn [option_map entry_or_none] in E. destruct (dict_lookup _ _ _ _ D E) as (v & L & Q). rewrite L.
      rewrite (events_found table calls l x v T W2 Q A). reflexivity.
  Qed.
  Lemma own_events_entries calls c : own_events calls c ->
    entries_for (lit "AA") (PropAppear.annotation_entries calls) = entry_or_none (lit "AA") (option_map AdditionalActions_reads c).
  Proof using Type.
    destruct calls as [calls|calls]; cbn [own_events PropAppear.annotation_entries]; intro H.
    - entries H Annotation_head Annotation_doc AdditionalActions_reads. exact H.
    - PropForm.field_call H AdditionalActions_reads. exact H.
  Qed.
  Lemma annotation_events_found t x : annotation_events_written decode ops (fst t) (fst (snd t)) (snd (snd t)) -> asked_annotation_events pages named t = Some x ->
    annotation_events decode resolved pages dests (VRef (fst t) 0) = Some x.
  Proof using R K.
    destruct t as [id [a l]]. cbn [fst snd]. intros (calls & H1 & H2 & H3) A. destruct (PropAppear.entries_found resolved ops R _ _ H1) as (d & E & D).
    unfold asked_annotation_events in A. cbn [fst snd] in A. unfold annotation_events. cbn [object_dict]. rewrite E. cbn [bind].
    destruct (match a with None => Some None | Some a => option_map Some (asked_action pages named a) end) as [y|] eqn:Ey; [|discriminate A]. cbn [bind] in A.
    rewrite (part_found (lit "A") Action_reads _ (action_written decode ops) _ _ d a y D) with (2 := H2).
    2:{ intros c H. PropAppear.annotation_call H Action_reads. destruct c; exact H. }
    2:{ intros c a' v -> W V. destruct (asked_action pages named a') as [z|] eqn:Ez; [|discriminate Ey]. apply some_inj in Ey. subst y.
        exists z. split; [reflexivity|exact (action_found c a' z v W V Ez)]. }
    2:{ intros ->. apply some_inj in Ey. symmetry. exact Ey. }
    cbn [bind]. destruct (asked_events pages named l) as [z|] eqn:Ez; [|discriminate A].
    rewrite (events_in_found field_events _ l z _ d (or_introl eq_refl) D (own_events_entries calls) H3 Ez). exact A.
  Qed.
  Lemma page_annotation_events_found page l x d : page_annotation_events_written decode ops page l -> resolved page = Some (IObj page 0 (VDict d)) ->
    all_of (map (asked_annotation_events pages named) l) = Some x -> page_annotation_events decode resolved pages dests d = Some x.
  Proof using R K.
    intros [(calls & H1 & H2) W] E A. destruct (found resolved ops R _ _ H1) as (i & E' & v & -> & D). rewrite E in E'. apply some_inj in E'.
    assert (v = VDict d) as -> by congruence. unfold page_annotation_events. destruct H2 as [[E0 H2]|H2]; entries H2 Page_head Page_doc is_refs.
    - destruct l; [|discriminate]. rewrite (dict_lookup_none _ _ _ D H2). exact A.
    - destruct (dict_lookup _ _ _ _ D H2) as (v & L & vs & -> & Q). rewrite L. apply refs_found in Q. subst vs. cbn [read_list]. clear - R K W A. revert x A.
      induction W as [|a l H W IH]; intros x A; [exact A|]. cbn [map all_of] in *. destruct (asked_annotation_events pages named a) as [y|] eqn:Ey; [|discriminate A].
      rewrite (annotation_events_found a y H Ey). destruct (all_of (map _ l)) as [ys|]; [|discriminate A]. rewrite (IH ys eq_refl). exact A.
  Qed.
  Lemma asked_app (a b : list (list on_event)) ys : all_of (map (asked_events pages named) (a ++ b)) = Some ys -> exists y z, ys = y ++ z /\
    all_of (map (asked_events pages named) a) = Some y /\ all_of (map (asked_events pages named) b) = Some z.
  Proof using Type.
    revert ys. induction a as [|e a IHa]; intros ys H; [exists [], ys; split; [reflexivity|split; [reflexivity|exact H]]|].
    cbn [app map all_of] in *. destruct (asked_events pages named e) as [u|]; [|discriminate H]. destruct (all_of (map (asked_events pages named) (a ++ b))) as [us|]; [|discriminate H].
    destruct (IHa us eq_refl) as (y & z & -> & -> & E). exists (u :: y), z. apply some_inj in H. subst ys. split; [reflexivity|]. split; [reflexivity|exact E].
  Qed.
  Fixpoint ft_depth (t : field_tree) : nat :=
    match t with FieldTree _ _ kids => S (match kids with None => 0%nat | Some kids => fold_right Nat.max 0%nat (map ft_depth kids) end) end.
  Lemma fields_events_found : forall t x n, field_tree_written decode ops t -> all_of (map (asked_events pages named) (ft_events t)) = Some x ->
    (ft_depth t <= n)%nat -> fields_events decode resolved pages dests n (VRef (ft_id t) 0) = Some x.
  Proof using R K.
    fix IH 1. intros [id l kids] x [|n] W A L; cbn [field_tree_written ft_events ft_depth ft_id] in *; [inversion L|]. apply le_S_n in L.
    destruct W as [(calls & H1 & H2 & H3) W]. destruct (PropAppear.entries_found resolved ops R _ _ H1) as (d & E & D).
    cbn [map all_of] in A. destruct (asked_events pages named l) as [y|] eqn:Ey; [|discriminate A].
    cbn [fields_events object_dict]. rewrite E. cbn [bind].
    rewrite (events_in_found field_events _ l y _ d (or_introl eq_refl) D (own_events_entries calls) H2 Ey). cbn [bind].
    assert (H3' : entries_for (lit "Kids") (PropAppear.annotation_entries calls) = entry_or_none (lit "Kids") (option_map is_refs (option_map (map ft_id) kids))).
    { clear - H3. destruct calls as [calls|calls]; cbn [own_kids PropAppear.annotation_entries] in *.
      - entries H3 Annotation_head Annotation_doc is_refs. exact H3.
      - unfold SpecForm.field_kids in H3. PropForm.field_call H3 is_refs. exact H3. }
    destruct kids as [kids|]; cbn [option_map entry_or_none] in H3'; [|rewrite (dict_lookup_none _ _ _ D H3'); exact A].
    destruct (dict_lookup _ _ _ _ D H3') as (v & L2 & vs & -> & Q). rewrite L2. apply refs_found in Q. subst vs.
    destruct (all_of (map (asked_events pages named) (flat_map ft_events kids))) as [ys|] eqn:Es; [|discriminate A].
    assert (Y : concat_all (map (fields_events decode resolved pages dests n) (map (fun r => VRef r 0) (map ft_id kids))) = Some ys); [|rewrite Y; exact A].
    clear - IH W L Es. revert ys Es. induction kids as [|t kids IHk]; intros ys Es; [exact Es|]. destruct W as [W1 W2].
    cbn [map fold_right] in L. cbn [flat_map] in Es. cbn [map concat_all].
    destruct (asked_app _ _ _ Es) as (y & z & -> & E1 & E2).
    rewrite (IH t y n W1 E1) by (etransitivity; [apply Nat.le_max_l|exact L]).
    rewrite (IHk W2) with (ys := z) by ((etransitivity; [apply Nat.le_max_r|exact L]) || exact E2). reflexivity.
  Qed.
End Walk.

Lemma document_found {A} decode ops cat file calls tree named (f : list (bytes * val) -> list (Z * list (bytes * val)) -> option (list (bytes * val)) -> nat -> option A) x m :
  finished_document decode ops cat file -> In (DocCatalog cat calls) ops -> pages_written ops calls tree -> named_written ops calls named ->
  (forall c ds dests n, is_dict (writer_doc Catalog_head Catalog_doc calls) (VDict c) -> map fst ds = it_pages tree ->
    Forall2 (fun id e => fst e = id /\ resolve decode file id = Some (IObj id 0 (VDict (snd e)))) (it_pages tree) ds ->
    Forall (fun op => doc_op_reads op (resolve decode file)) ops -> dests_known named dests -> (m <= n)%nat -> f c ds dests n = Some x) ->
  exists depth, forall n, (depth <= n)%nat -> with_document decode n file (fun c ds dests => f c ds dests n) = Some x.
Proof.
  intros D I P N H. destruct (document_facts _ _ _ _ D) as [X _]. destruct (catalog_found _ _ _ _ _ D I) as (c & C1 & C2).
  destruct (pages_found _ _ _ _ _ _ D I P) as (ds & F & E). destruct (dests_found _ _ _ _ _ _ D I N) as (dests & E2 & K).
  exists (it_depth tree + m)%nat. intros n Hn. unfold with_document. rewrite C1. cbn [bind]. rewrite E by lia. cbn [bind]. rewrite E2. cbn [bind].
  apply H; try assumption; [exact (pages_ids _ _ _ F)|lia].
Qed.

(** A reader that starts from the trailer finds for every event of the document the action to be taken, with all it refers to. *)
Theorem C84_document : forall decode ops cat file calls tree named l x,
  finished_document decode ops cat file -> In (DocCatalog cat calls) ops -> pages_written ops calls tree -> named_written ops calls named ->
  document_events_written decode ops calls l -> asked_events (it_pages tree) named l = Some x ->
  exists depth, forall n, (depth <= n)%nat -> read_document_events decode n file = Some x.
Proof.
  intros decode ops cat file calls tree named l x D I P N W A. unfold read_document_events.
  apply (document_found decode ops cat file calls tree named (fun c ds dests _ => events_in decode (resolve decode file) (map fst ds) dests document_events c) x 0%nat D I P N).
  intros c ds dests n C Ei _ X K _. rewrite Ei. refine (events_in_found decode _ ops X _ named dests K document_events _ l x _ c (or_intror (or_intror eq_refl)) C _ W A).
  intros o H. entries H Catalog_head Catalog_doc AdditionalActions_reads. exact H.
Qed.
(** The same for the events of every page. *)
Theorem C84_pages : forall decode ops cat file calls tree named ls xs,
  finished_document decode ops cat file -> In (DocCatalog cat calls) ops -> pages_written ops calls tree -> named_written ops calls named ->
  Forall2 (page_events_written decode ops) (it_pages tree) ls -> all_of (map (asked_events (it_pages tree) named) ls) = Some xs ->
  exists depth, forall n, (depth <= n)%nat -> read_page_events decode n file = Some xs.
Proof.
  intros decode ops cat file calls tree named ls xs D I P N W A. unfold read_page_events.
  apply (document_found decode ops cat file calls tree named
    (fun c ds dests _ => all_of (map (fun p => events_in decode (resolve decode file) (map fst ds) dests page_events (snd p)) ds)) xs 0%nat D I P N).
  intros c ds dests n _ Ei F X K _. rewrite Ei. clear Ei P. revert W F A. generalize (it_pages tree) at 1 2 as pages. intros pages W. revert ds xs.
  induction W as [|page l pages ls (pcalls & H1 & H2) W IH]; intros ds xs F A; inversion F as [|? e ? ds' [F1 F2] F']; subst; [exact A|].
  cbn [map all_of] in *. destruct (asked_events (it_pages tree) named l) as [y|] eqn:Ey; [|discriminate A].
  destruct (all_of (map (asked_events (it_pages tree) named) ls)) as [ys|]; [|discriminate A]. rewrite (IH ds' ys F' eq_refl).
  destruct (found _ ops X _ _ H1) as (i & E' & v & -> & M). rewrite F2 in E'. apply some_inj in E'. assert (v = VDict (snd e)) as -> by congruence.
  rewrite (events_in_found decode _ ops X _ named dests K page_events _ l y _ (snd e) (or_intror (or_introl eq_refl)) M) with (2 := H2) (3 := Ey); [exact A|].
  intros o H. entries H Page_head Page_doc AdditionalActions_reads. exact H.
Qed.
(** For the annotations of every page: what happens when they are activated, and on other events. *)
Theorem C84_annotations : forall decode ops cat file calls tree named ls xs,
  finished_document decode ops cat file -> In (DocCatalog cat calls) ops -> pages_written ops calls tree -> named_written ops calls named ->
  Forall2 (page_annotation_events_written decode ops) (it_pages tree) ls ->
  all_of (map (fun l => all_of (map (asked_annotation_events (it_pages tree) named) l)) ls) = Some xs ->
  exists depth, forall n, (depth <= n)%nat -> read_annotation_events decode n file = Some xs.
Proof.
  intros decode ops cat file calls tree named ls xs D I P N W A. unfold read_annotation_events.
  apply (document_found decode ops cat file calls tree named
    (fun c ds dests _ => all_of (map (fun p => page_annotation_events decode (resolve decode file) (map fst ds) dests (snd p)) ds)) xs 0%nat D I P N).
  intros c ds dests n _ Ei F X K _. rewrite Ei. clear Ei P. revert W F A. generalize (it_pages tree) at 1 2 as pages. intros pages W. revert ds xs.
  induction W as [|page l pages ls H W IH]; intros ds xs F A; inversion F as [|? e ? ds' [F1 F2] F']; subst; [exact A|].
  cbn [map all_of] in *. destruct (all_of (map (asked_annotation_events (it_pages tree) named) l)) as [y|] eqn:Ey; [|discriminate A].
  destruct (all_of (map (fun l => all_of (map (asked_annotation_events (it_pages tree) named) l)) ls)) as [ys|]; [|discriminate A]. rewrite (IH ds' ys F' eq_refl).
  rewrite (page_annotation_events_found decode _ ops X _ named dests K _ l y (snd e) H F2 Ey). exact A.
Qed.
(** For the fields of the form and all below them. *)
Theorem C84_fields : forall decode ops cat file calls tree named l xs,
  finished_document decode ops cat file -> In (DocCatalog cat calls) ops -> pages_written ops calls tree -> named_written ops calls named ->
  form_events_written decode ops calls l -> all_of (map (asked_events (it_pages tree) named) (flat_map ft_events l)) = Some xs ->
  exists depth, forall n, (depth <= n)%nat -> read_field_events decode n file = Some xs.
Proof.
  intros decode ops cat file calls tree named l xs D I P N (fcalls & W1 & W2 & W3) A. unfold read_field_events.
  entries W1 Catalog_head Catalog_doc Form_reads. entries W2 Form_head Form_doc is_refs.
  apply (document_found decode ops cat file calls tree named (fun c ds dests n =>
    required (lit "AcroForm") c (fun form => bind (object_dict (resolve decode file) form) (fun form => required (lit "Fields") form (fun v =>
    match v with VArr l => concat_all (map (fields_events decode (resolve decode file) (map fst ds) dests n) l) | _ => None end)))) xs (fold_right Nat.max 0%nat (map ft_depth l)) D I P N).
  intros c ds dests n C Ei F X K L. rewrite Ei. unfold required at 1. destruct (dict_lookup _ _ _ _ C W1) as (v & L1 & Q). rewrite L1. cbn [bind].
  destruct (dict_is _ _ Q) as [fd ->]. cbn [object_dict bind]. unfold required. destruct (dict_lookup _ _ _ _ Q W2) as (v & L2 & vs & -> & Q2). rewrite L2. cbn [bind].
  apply refs_found in Q2. subst vs.
  clear - X K W3 A L. revert xs A. induction W3 as [|t l W _ IH]; intros xs A; [exact A|]. cbn [flat_map] in A. destruct (asked_app _ _ _ _ _ A) as (y & z & -> & A1 & A2).
  cbn [map fold_right] in L. cbn [map concat_all].
  rewrite (fields_events_found decode _ ops X (it_pages tree) named dests K t y n W A1) by (etransitivity; [apply Nat.le_max_l|exact L]).
  rewrite (IH (Nat.le_trans _ _ _ (Nat.le_max_r _ _) L) z A2). reflexivity.
Qed.

(** A case: the document closes with a script, opening the page leads to it, an annotation opens an embedded file, another one plays
    media, a field is submitted. *)
Definition close_script : Action_calls := [Typed (Action_action_type ActionType_JavaScript); Typed (Action_js_stream 31)].
Definition open_page : Action_calls := [Typed (Action_action_type ActionType_GoTo); Typed (Action_destination_named (lit "start"))].
Definition launch_file : Action_calls := [Typed (Action_action_type ActionType_RemoteGoTo);
  Typed (Action_file_spec [Typed (FileSpec_path (lit "f.txt")); Typed (FileSpec_unic_file [102; 960]); Typed (FileSpec_embedded_file 30);
    Typed (FileSpec_volatile true); Typed (FileSpec_association_kind AssociationKind_Data)]); Typed (Action_new_window true)].
Definition play_media : Action_calls := [Typed (Action_action_type ActionType_Rendition); Typed (Action_operation RenditionOperation_Play); Typed (Action_annotation 12);
  Typed (Action_rendition [Typed (Rendition_subtype RenditionType_Media);
    Typed (Rendition_media_clip [Typed (MediaClip_subtype MediaClipType_Data); Typed (MediaClip_data [Typed (FileSpec_path (lit "a.mp4"))]); Typed (MediaClip_data_type (lit "video/mp4"));
      Typed (MediaClip_permissions [Typed (MediaPermissions_temp_file TempFileType_Access)]); Typed (MediaClip_alt_texts [[]; [960]])]);
    Typed (Rendition_media_play_params [Typed (MediaPlayParams_controls true)])])].
Definition submit_form : Action_calls := [Typed (Action_action_type ActionType_SubmitForm);
  Typed (Action_fields [TypedItem (Fields_ids [20]); TypedItem (Fields_name [97; 46; 98])]); Typed (Action_form_flags [FormActionFlags_ExportFormat; FormActionFlags_IncludeExclude])].
Definition action_catalog : Catalog_calls := [Typed (Catalog_pages 2); Typed (Catalog_destinations 5);
  Typed (Catalog_additional_actions [Typed (AdditionalActions_cat_before_close close_script); Typed (AdditionalActions_cat_after_print open_page)]);
  Typed (Catalog_form [Typed (Form_fields [20])])].
Definition action_sample : list doc_op := [
  DocCatalog 1 action_catalog;
  DocTyped 2 (Ck_pages [Typed (Pages_kids [3])]);
  DocTyped 3 (Ck_page [Typed (Page_parent 2); Typed (Page_annotations [11; 12]); Typed (Page_additional_actions [Typed (AdditionalActions_page_open open_page)])]);
  DocTyped 5 (Ck_destinations [(lit "start", place_calls (3, Destination_fit))]);
  DocTyped 11 (Ck_annotation [Typed (Annotation_subtype AnnotationType_Link); Typed (Annotation_action launch_file)]);
  DocTyped 12 (Ck_annotation [Typed (Annotation_subtype AnnotationType_Widget); Typed (Annotation_additional_actions [Typed (AdditionalActions_annot_page_visible play_media)])]);
  DocTyped 20 (Ck_form_field [Typed (Field_partial_name [97]); Typed (Field_children [12]);
    Typed (Field_additional_actions [Typed (AdditionalActions_form_calculate submit_form)])]);
  DocTyped 30 (Ck_embedded_file (lit "data") [STyped (EmbeddedFile_subtype (lit "text/plain"));
    STyped (EmbeddedFile_params [Typed (EmbeddingParams_size 4); Typed (EmbeddingParams_modification_date (date_new 2024))])]);
  DocTyped 31 (Ck_stream (lit "js()") [])].
Definition a_file name path e := mkFile name (Some path) None None None None e.
Definition closing_action {P} : action P := mkAction ActionType_JavaScript None None None None None (Some (ScriptStream (lit "js()"))) None None None None None.
Definition opening_action {P} (p : P) : action P := mkAction ActionType_GoTo (Some p) None None None None None None None None None None.
Definition launching_action {P} : action P :=
  mkAction ActionType_RemoteGoTo None (Some (mkFile (Some [102; 960]) (Some (lit "f.txt")) None None (Some true) (Some AssociationKind_Data) (Some (mkEmbedded (lit "data") (Some (lit "text/plain")) (Some (mkParams (Some 4) None (Some (date_reading (date_new 2024))) None)))))) (Some true) None None None None None None None None.
Definition playing_action {P} : action P := mkAction ActionType_Rendition None None None None None None None None (Some RenditionOperation_Play) (Some 12)
  (Some (mkRendition (Some RenditionType_Media) None
    (Some (mkClip (Some MediaClipType_Data) None (Some (a_file None (lit "a.mp4") None)) (Some (lit "video/mp4")) (Some (Some TempFileType_Access)) (Some [[]; [960]])))
    (Some (Some true)))).
Definition submitting_action {P} : action P := mkAction ActionType_SubmitForm None None None None None None (Some [inl 20; inr [97; 46; 98]]) (Some [1; 3]) None None None.
Definition action_tree := ItNode 2 [ItPage 3].
Definition action_named := [(lit "start", (3, Destination_fit))].
Definition document_asked {P} (p : P) := [(BeforeClosing, @closing_action P); (AfterPrinting, opening_action p)].
Definition pages_asked {P} (p : P) := [[(Opened, opening_action p)]].
Definition annotations_asked : list (list (Z * (option (action place) * list on_event))) := [[(11, (Some launching_action, [])); (12, (None, [(PageShown, playing_action)]))]].
Definition fields_asked := [FieldTree 20 [(Calculating, submitting_action)] (Some [FieldTree 12 [(PageShown, playing_action)] None])].
Definition start := (0%nat, lit "Fit").
Ltac there := cbn [action_sample In]; tauto.
Lemma closing_written : action_written no_filter action_sample close_script closing_action.
Proof.
  split; [reflexivity|]. do 5 (split; [reflexivity|]). split; [|repeat split]. exists (inr 31). split; [reflexivity|].
  exists (lit "js()"), []. split; [there|]. exists None. split; reflexivity.
Qed.
Lemma opening_written : action_written no_filter action_sample open_page (opening_action (Named (lit "start"))).
Proof. repeat split. Qed.
Lemma launching_written : action_written no_filter action_sample launch_file launching_action.
Proof.
  split; [reflexivity|]. split; [reflexivity|]. split; [|repeat split]. eexists. split; [reflexivity|]. do 6 (split; [reflexivity|]).
  exists (inl 30). split; [reflexivity|]. eexists; eexists. split; [there|]. split; [exists None; split; reflexivity|]. split; [reflexivity|].
  eexists. split; [reflexivity|]. split; [reflexivity|]. split; [reflexivity|]. split; [|reflexivity]. exists (date_new 2024). split; reflexivity.
Qed.
Lemma playing_written : action_written no_filter action_sample play_media playing_action.
Proof.
  split; [reflexivity|]. do 10 (split; [reflexivity|]). eexists. split; [reflexivity|]. split; [reflexivity|]. split; [reflexivity|]. split.
  - eexists. split; [reflexivity|]. split; [reflexivity|]. split; [reflexivity|]. split; [eexists; split; [reflexivity|repeat split]|]. split; [reflexivity|].
    split; [eexists; split; reflexivity|reflexivity].
  - eexists. split; reflexivity.
Qed.
Lemma submitting_written : action_written no_filter action_sample submit_form submitting_action.
Proof.
  split; [reflexivity|]. do 6 (split; [reflexivity|]). split; [|split; [|repeat split]].
  - eexists. split; [reflexivity|]. exists [Fields_ids [20]; Fields_name [97; 46; 98]]. split; reflexivity.
  - eexists. split; [reflexivity|]. reflexivity.
Qed.
Ltac event := apply Forall2_cons; [eexists; eexists; split; [reflexivity|]; split; [reflexivity|]; split; [cbn; tauto|]|].
Lemma twelve_written : events_written no_filter action_sample field_events (own_events (inl [Typed (Annotation_subtype AnnotationType_Widget);
  Typed (Annotation_additional_actions [Typed (AdditionalActions_annot_page_visible play_media)])])) [(PageShown, playing_action)].
Proof. right. eexists. split; [reflexivity|]. event; [exact playing_written|apply Forall2_nil]. Qed.
Example C84_case :
  pages_written action_sample action_catalog action_tree /\ named_written action_sample action_catalog action_named /\
  (document_events_written no_filter action_sample action_catalog (document_asked (Named (lit "start"))) /\
   asked_events (it_pages action_tree) action_named (document_asked (Named (lit "start"))) = Some (document_asked start)) /\
  (Forall2 (page_events_written no_filter action_sample) (it_pages action_tree) (pages_asked (Named (lit "start"))) /\
   all_of (map (asked_events (it_pages action_tree) action_named) (pages_asked (Named (lit "start")))) = Some (pages_asked start)) /\
  (Forall2 (page_annotation_events_written no_filter action_sample) (it_pages action_tree) annotations_asked /\
   all_of (map (fun l => all_of (map (asked_annotation_events (it_pages action_tree) action_named) l)) annotations_asked) =
     Some [[(Some launching_action, []); (None, [(PageShown, playing_action)])]]) /\
  form_events_written no_filter action_sample action_catalog fields_asked /\
  all_of (map (asked_events (it_pages action_tree) action_named) (flat_map ft_events fields_asked)) =
    Some [[(Calculating, submitting_action)]; [(PageShown, playing_action)]].
Proof.
  split; [split; [reflexivity|]; split; [eexists; split; [there|reflexivity]|]; split; [eexists; there|exact I]|].
  split; [right; exists 5; split; [reflexivity|there]|].
  split; [split; [|reflexivity]|split; [split; [|reflexivity]|split; [split; [|reflexivity]|split; [|reflexivity]]]].
  - right. eexists. split; [reflexivity|]. event; [exact closing_written|]. event; [exact opening_written|apply Forall2_nil].
  - apply Forall2_cons; [|apply Forall2_nil]. eexists. split; [there|]. right. eexists. split; [reflexivity|]. event; [exact opening_written|apply Forall2_nil].
  - apply Forall2_cons; [|apply Forall2_nil]. split; [eexists; split; [there|right; reflexivity]|].
    apply Forall_cons; [|apply Forall_cons; [|apply Forall_nil]]; cbn [fst snd].
    + exists (inl [Typed (Annotation_subtype AnnotationType_Link); Typed (Annotation_action launch_file)]). split; [there|]. split; [|left; split; reflexivity].
      eexists. split; [reflexivity|exact launching_written].
    + eexists (inl _). split; [there|]. split; [reflexivity|exact twelve_written].
  - eexists. split; [reflexivity|]. split; [reflexivity|]. apply Forall_cons; [|apply Forall_nil]. split.
    + exists (inr [Typed (Field_partial_name [97]); Typed (Field_children [12]); Typed (Field_additional_actions [Typed (AdditionalActions_form_calculate submit_form)])]).
      split; [there|]. split; [|reflexivity]. right. eexists. split; [reflexivity|]. event; [exact submitting_written|apply Forall2_nil].
    + split; [|exact I]. split; [|exact I]. eexists (inl _). split; [there|]. split; [exact twelve_written|reflexivity].
Qed.
Example C84_file : exists file, finished_document no_filter action_sample 1 file /\
  (read_document_events no_filter 3 file, read_page_events no_filter 3 file, read_annotation_events no_filter 3 file, read_field_events no_filter 3 file) =
  (Some (document_asked start), Some (pages_asked start), Some [[(Some launching_action, []); (None, [(PageShown, playing_action)])]],
   Some [[(Calculating, submitting_action)]; [(PageShown, playing_action)]]).
Proof.
  assert (X : match doc_run action_sample (pdf_with_settings true) with
              | Some p => match finish p with
                  | Some file => Some (blen file <=? 10 ^ 10,
                      (read_document_events no_filter 3 file, read_page_events no_filter 3 file, read_annotation_events no_filter 3 file, read_field_events no_filter 3 file))
                  | None => None end
              | None => None end = Some (true, (Some (document_asked start), Some (pages_asked start), Some [[(Some launching_action, []); (None, [(PageShown, playing_action)])]],
                Some [[(Calculating, submitting_action)]; [(PageShown, playing_action)]]))) by (vm_compute; reflexivity).
  destruct (doc_run action_sample (pdf_with_settings true)) as [p|] eqn:R; [|discriminate].
  destruct (finish p) as [file|] eqn:F; [|discriminate]. exists file. apply some_inj in X.
  split; [apply (finished_table _ _ _ _ true p); [|exact R|exact F| |apply Z.leb_le; exact (f_equal fst X)|reflexivity]|exact (f_equal snd X)].
  - repeat (apply Forall_cons; [cbn [doc_op_ok op_typed]; repeat split|]); apply Forall_nil.
  - unfold ids_below; repeat constructor.
Qed.

Print Assumptions C84_document.
Print Assumptions C84_pages.
Print Assumptions C84_annotations.
Print Assumptions C84_fields.
