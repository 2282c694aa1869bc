(** Specification: how a document is to be shown and printed: viewer preferences, extensions, output intents, associated files and the marking of tagged
    documents, from the catalog (ISO 32000-1, 7.7.2, 7.12, 12.2, 14.7.1, 14.11.5); transitions, durations, tab orders, thumbnails and groups of
    pages (7.7.3.3, 12.4.4). *)

From Coq Require Import ZArith List Bool.
From Verif Require ModelCmap ModelContent SpecContent.
From Verif Require Import Bytes ModelFloat ModelBuf ModelObject ModelChunk ModelColor ModelSmall ModelPdf ModelTw ModelEnums ModelRoles ModelTwArgs
  ModelTwFiles ModelTwGraphics ModelTwAnnot ModelTwForms ModelTwAttr ModelTwXObj ModelTwFonts ModelTwDoc ModelFontDesc ModelDoc
  SpecLex SpecObj SpecText SpecMeans SpecRenum SpecChunk SpecFile SpecPdf SpecTyped SpecColor SpecSmall SpecTw SpecEnums SpecRoles SpecTwArgs
  SpecTwFiles SpecTwGraphics SpecTwAnnot SpecTwForms SpecTwAttr SpecTwXObj SpecTwFonts SpecTwDoc SpecFontDesc SpecDoc SpecPages SpecExtract SpecNav SpecViews SpecFunctions SpecActions.
From Verif Require SpecInfo.
Import ListNotations.
Local Open Scope Z_scope.

(** ** What is read *)

Record preferences := mkPreferences { vp_toolbar : option bool; vp_menubar : option bool; vp_fit : option bool; vp_center : option bool; vp_title : option bool;
  vp_after : option PageMode; vp_direction : option Direction }.
Record marking := mkMarking { mk_marked : option bool; mk_user : option bool; mk_suspects : option bool }.
Record extension := mkExtension { ex_version : option (Z * Z); ex_level : option Z }.
(** With the name of the standard and the profile. *)
Record intent := mkIntent { oi_standard : option bytes; oi_condition : option (list Z); oi_identifier : option (list Z); oi_registry : option (list Z);
  oi_info : option (list Z); oi_profile : option bytes }.
Record presentation := mkPresentation { pn_preferences : option preferences; pn_marking : option marking; pn_extensions : option (list (bytes * extension));
  pn_intents : option (list intent); pn_files : option (list file_of) }.

(** Transitions and pages; [N] for numbers, [C] for color spaces. *)
Record transition (N : Type) := mkTransition { tr_style : option TransitionStyle; tr_seconds : option N; tr_vertical : option bool; tr_outward : option bool;
  tr_angle : option TransitionAngle; tr_scale : option N }.
Record group (C : Type) := mkGroup { gr_transparency : option unit; gr_space : option C; gr_isolated : option bool; gr_knockout : option bool }.
Record page_shown (N C : Type) := mkShown { sp_modified : option rdate; sp_seconds : option N; sp_transition : option (transition N); sp_group : option (group C);
  sp_tabs : option TabOrder; sp_thumbnail : option bytes; sp_metadata : option bytes; sp_files : option (list file_of) }.
Arguments mkTransition {N}. Arguments tr_style {N}. Arguments tr_seconds {N}. Arguments tr_vertical {N}. Arguments tr_outward {N}. Arguments tr_angle {N}. Arguments tr_scale {N}.
Arguments mkGroup {C}. Arguments gr_transparency {C}. Arguments gr_space {C}. Arguments gr_isolated {C}. Arguments gr_knockout {C}.
Arguments mkShown {N C}. Arguments sp_modified {N C}. Arguments sp_seconds {N C}. Arguments sp_transition {N C}. Arguments sp_group {N C}. Arguments sp_tabs {N C}.
Arguments sp_thumbnail {N C}. Arguments sp_metadata {N C}. Arguments sp_files {N C}.

(** ** The reader *)

Definition is_it (n : bytes) (v : val) : option unit := match v with VName m => if bytes_eqb m n then Some tt else None | _ => None end.
(** One of two names. *)
Definition read_choice (yes no : bytes) (v : val) : option bool :=
  match v with VName n => if bytes_eqb n yes then Some true else if bytes_eqb n no then Some false else None | _ => None end.
Definition read_angle (v : val) : option TransitionAngle :=
  match v with
  | VInt z =>
      by_number z [(0, TransitionAngle_LeftToRight); (90, TransitionAngle_BottomToTop); (180, TransitionAngle_RightToLeft); (270, TransitionAngle_TopToBottom);
        (315, TransitionAngle_TopLeftToBottomRight)]
  | VName n => if bytes_eqb n (lit "None") then Some TransitionAngle_None else None
  | _ => None
  end.
Section Reader.
  Variable decode : option val -> bytes -> option bytes.
  Variable resolved : Z -> option indirect.
  Definition read_preferences (v : val) : option preferences :=
    bind (object_dict resolved v) (fun d => let flag k := optional k d read_boolean in
    bind (flag (lit "HideToolbar")) (fun toolbar => bind (flag (lit "HideMenubar")) (fun menubar => bind (flag (lit "FitWindow")) (fun fit =>
    bind (flag (lit "CenterWindow")) (fun center => bind (flag (lit "DisplayDocTitle")) (fun title =>
    bind (optional (lit "NonFullScreenPageMode") d (read_named PageMode_table)) (fun after =>
    bind (optional (lit "Direction") d (read_named Direction_table)) (fun direction =>
    Some (mkPreferences toolbar menubar fit center title after direction))))))))).
  Definition read_marking (v : val) : option marking :=
    bind (object_dict resolved v) (fun d => let flag k := optional k d read_boolean in
    bind (flag (lit "Marked")) (fun marked => bind (flag (lit "UserProperties")) (fun user => bind (flag (lit "Suspects")) (fun suspects =>
    Some (mkMarking marked user suspects))))).
  Definition read_extension (v : val) : option extension :=
    bind (object_dict resolved v) (fun d =>
    bind (optional (lit "BaseVersion") d (fun v => bind (read_name v) SpecInfo.read_version_number)) (fun version =>
    bind (optional (lit "ExtensionLevel") d read_int) (fun level => Some (mkExtension version level)))).
  Definition read_extensions (v : val) : option (list (bytes * extension)) :=
    bind (object_dict resolved v) (fun d => all_of (map (fun e => option_map (pair (fst e)) (read_extension (snd e))) d)).
  Definition its_content (v : val) : option bytes := bind (read_id v) (stream_content decode resolved).
  Definition read_intent (v : val) : option intent :=
    bind (object_dict resolved v) (fun d => let text k := optional k d read_textstring in
    bind (optional (lit "S") d read_name) (fun standard => bind (text (lit "OutputCondition")) (fun condition =>
    bind (text (lit "OutputConditionIdentifier")) (fun identifier => bind (text (lit "RegistryName")) (fun registry => bind (text (lit "Info")) (fun info =>
    bind (optional (lit "DestOutputProfile") d its_content) (fun profile =>
    Some (mkIntent standard condition identifier registry info profile)))))))).
  Definition read_transition (v : val) : option (transition val) :=
    bind (object_dict resolved v) (fun d =>
    bind (optional (lit "S") d (read_named TransitionStyle_table)) (fun style => bind (optional (lit "D") d read_number) (fun seconds =>
    bind (optional (lit "Dm") d (read_choice (lit "V") (lit "H"))) (fun vertical => bind (optional (lit "M") d (read_choice (lit "O") (lit "I"))) (fun outward =>
    bind (optional (lit "Di") d read_angle) (fun angle => bind (optional (lit "SS") d read_number) (fun scale =>
    Some (mkTransition style seconds vertical outward angle scale)))))))).
  Definition read_group_of (v : val) : option (group val) :=
    bind (object_dict resolved v) (fun d =>
    bind (optional (lit "S") d (is_it (lit "Transparency"))) (fun t => bind (optional (lit "CS") d Some) (fun space =>
    bind (optional (lit "I") d read_boolean) (fun isolated => bind (optional (lit "K") d read_boolean) (fun knockout =>
    Some (mkGroup t space isolated knockout)))))).
  Definition read_shown (d : list (bytes * val)) : option (page_shown val val) :=
    bind (optional (lit "LastModified") d SpecInfo.read_date) (fun modified => bind (optional (lit "Dur") d read_number) (fun seconds =>
    bind (optional (lit "Trans") d read_transition) (fun trans => bind (optional (lit "Group") d read_group_of) (fun g =>
    bind (optional (lit "Tabs") d (read_named TabOrder_table)) (fun tabs => bind (optional (lit "Thumb") d its_content) (fun thumbnail =>
    bind (optional (lit "Metadata") d its_content) (fun metadata => bind (optional (lit "AF") d (read_list (read_file_of decode resolved))) (fun files =>
    Some (mkShown modified seconds trans g tabs thumbnail metadata files))))))))).
End Reader.
Definition read_presentation decode (file : bytes) : option presentation :=
  let resolved := resolve decode file in
  bind (document_catalog decode file) (fun d =>
  bind (optional (lit "ViewerPreferences") d (read_preferences resolved)) (fun p => bind (optional (lit "MarkInfo") d (read_marking resolved)) (fun m =>
  bind (optional (lit "Extensions") d (read_extensions resolved)) (fun e =>
  bind (optional (lit "OutputIntents") d (read_list (read_intent decode resolved))) (fun i =>
  bind (optional (lit "AF") d (read_list (read_file_of decode resolved))) (fun files =>
  Some (mkPresentation p m e i files))))))).
Definition read_pages_shown decode (depth : nat) (file : bytes) : option (list (page_shown val val)) :=
  bind (document_pages decode depth file) (fun pages => all_of (map (fun p => read_shown decode (resolve decode file) (snd p)) pages)).

(** ** The program *)

Section Written.
  Variables (decode : option val -> bytes -> option bytes) (ops : list doc_op).
  Definition preferences_written (calls : ViewerPreferences_calls) (p : preferences) : Prop :=
    called (lit "HideToolbar") <| ViewerPreferences_hide_toolbar b => b |> calls (vp_toolbar p) /\
    called (lit "HideMenubar") <| ViewerPreferences_hide_menubar b => b |> calls (vp_menubar p) /\
    called (lit "FitWindow") <| ViewerPreferences_fit_window b => b |> calls (vp_fit p) /\
    called (lit "CenterWindow") <| ViewerPreferences_center_window b => b |> calls (vp_center p) /\
    called (lit "DisplayDocTitle") <| ViewerPreferences_display_doc_title b => b |> calls (vp_title p) /\
    called (lit "NonFullScreenPageMode") <| ViewerPreferences_non_full_screen_page_mode m => m |> calls (vp_after p) /\
    called (lit "Direction") <| ViewerPreferences_direction x => x |> calls (vp_direction p).
  Definition marking_written (calls : MarkInfo_calls) (m : marking) : Prop :=
    called (lit "Marked") <| MarkInfo_marked b => b |> calls (mk_marked m) /\
    called (lit "UserProperties") <| MarkInfo_user_properties b => b |> calls (mk_user m) /\
    called (lit "Suspects") <| MarkInfo_suspects b => b |> calls (mk_suspects m).
  Definition extension_written (calls : DeveloperExtension_calls) (e : extension) : Prop :=
    called (lit "BaseVersion") <| DeveloperExtension_base_version major minor => (major, minor) |> calls (ex_version e) /\
    called (lit "ExtensionLevel") <| DeveloperExtension_extension_level n => n |> calls (ex_level e).
  (** The names of the standards (table 401). *)
  Definition standard_name (t : OutputIntentSubtype) (n : bytes) : Prop :=
    n = match t with
        | OutputIntentSubtype_PDFX => lit "GTS_PDFX" | OutputIntentSubtype_PDFA => lit "GTS_PDFA1" | OutputIntentSubtype_PDFE => lit "ISO_PDFE1"
        | OutputIntentSubtype_Custom n => n
        end.
  Definition profile_written (id : Z) (content : bytes) : Prop :=
    exists data calls, In (DocTyped id (Ck_icc_profile data calls)) ops /\ stored_with decode calls data content.
  Definition intent_written (calls : list (or_raw OutputIntent_call)) (i : intent) : Prop :=
    part_given (called (lit "S") <| OutputIntent_subtype t => t |> calls) standard_name (oi_standard i) /\
    called (lit "OutputCondition") <| OutputIntent_output_condition t => t |> calls (option_map TextPlain (oi_condition i)) /\
    called (lit "OutputConditionIdentifier") <| OutputIntent_output_condition_identifier t => t |> calls (option_map TextPlain (oi_identifier i)) /\
    called (lit "RegistryName") <| OutputIntent_registry_name t => t |> calls (oi_registry i) /\
    called (lit "Info") <| OutputIntent_info t => t |> calls (option_map TextPlain (oi_info i)) /\
    part_given (called (lit "DestOutputProfile") <| OutputIntent_dest_output_profile id => id |> calls) profile_written (oi_profile i).
  Definition presentation_written (catalog : Catalog_calls) (p : presentation) : Prop :=
    part_given (called (lit "ViewerPreferences") <| Catalog_viewer_preferences c => c |> catalog) preferences_written (pn_preferences p) /\
    part_given (called (lit "MarkInfo") <| Catalog_mark_info c => c |> catalog) marking_written (pn_marking p) /\
    part_given (called (lit "Extensions") <| Catalog_extensions l => l |> catalog)
      (Forall2 (fun e x => fst x = fst e /\ extension_written (snd e) (snd x))) (pn_extensions p) /\
    part_given (called (lit "OutputIntents") <| Catalog_output_intents l => l |> catalog) (Forall2 (fun c => intent_written (map Typed c))) (pn_intents p) /\
    part_given (called (lit "AF") <| Catalog_associated_files l => l |> catalog) (Forall2 (file_written decode ops)) (pn_files p).

  (** [opaque] is left out: it uses a key that is not that of the standard (C50_opaque_refuted). *)
  Definition transition_written (calls : Transition_calls) (t : transition f32) : Prop :=
    called (lit "S") <| Transition_style s => s |> calls (tr_style t) /\
    called (lit "D") <| Transition_duration x => x |> calls (tr_seconds t) /\
    called (lit "Dm") <| Transition_dimension b => b |> calls (tr_vertical t) /\
    called (lit "M") <| Transition_direction b => b |> calls (tr_outward t) /\
    called (lit "Di") <| Transition_angle a => a |> calls (tr_angle t) /\
    called (lit "SS") <| Transition_scale x => x |> calls (tr_scale t).
  Definition group_written (calls : Group_calls) (g : group cs) : Prop :=
    called (lit "S") (fun c => match c with Group_transparency => [inl tt] | _ => [] end) calls (gr_transparency g) /\
    called (lit "CS") <| Group_color_space c => c |> calls (gr_space g) /\
    called (lit "I") <| Group_isolated b => b |> calls (gr_isolated g) /\
    called (lit "K") <| Group_knockout b => b |> calls (gr_knockout g).
  Definition image_content (id : Z) (content : bytes) : Prop :=
    exists data calls, In (DocTyped id (Ck_image_xobject data calls)) ops /\ stored_with decode calls data content.
  Definition metadata_content (id : Z) (content : bytes) : Prop :=
    exists data calls, In (DocTyped id (Ck_metadata data calls)) ops /\ stored_with decode calls data content.
  Definition page_shown_written (page : Z) (s : page_shown f32 cs) : Prop :=
    exists calls, In (DocTyped page (Ck_page calls)) ops /\
      part_given (called (lit "LastModified") <| Page_last_modified d => d |> calls) date_is (sp_modified s) /\
      called (lit "Dur") <| Page_duration x => x |> calls (sp_seconds s) /\
      part_given (called (lit "Trans") <| Page_transition c => c |> calls) transition_written (sp_transition s) /\
      part_given (called (lit "Group") <| Page_group c => c |> calls) group_written (sp_group s) /\
      called (lit "Tabs") <| Page_tab_order t => t |> calls (sp_tabs s) /\
      part_given (called (lit "Thumb") <| Page_thumbnail id => id |> calls) image_content (sp_thumbnail s) /\
      part_given (called (lit "Metadata") <| Page_metadata id => id |> calls) metadata_content (sp_metadata s) /\
      part_given (called (lit "AF") <| Page_associated_files l => l |> calls) (Forall2 (file_written decode ops)) (sp_files s).
End Written.

(** What is read is what was asked, with numbers and color spaces as they are read. *)
Definition transition_is (a : transition f32) (r : transition val) : Prop :=
  tr_style r = tr_style a /\ optionally is_real (tr_seconds a) (tr_seconds r) /\ tr_vertical r = tr_vertical a /\ tr_outward r = tr_outward a /\
  tr_angle r = tr_angle a /\ optionally is_real (tr_scale a) (tr_scale r).
Definition group_is (a : group cs) (r : group val) : Prop :=
  gr_transparency r = gr_transparency a /\ optionally cs_reads (gr_space a) (gr_space r) /\ gr_isolated r = gr_isolated a /\ gr_knockout r = gr_knockout a.
Definition presented_is (a : page_shown f32 cs) (r : page_shown val val) : Prop :=
  sp_modified r = sp_modified a /\ optionally is_real (sp_seconds a) (sp_seconds r) /\ optionally transition_is (sp_transition a) (sp_transition r) /\
  optionally group_is (sp_group a) (sp_group r) /\ sp_tabs r = sp_tabs a /\ sp_thumbnail r = sp_thumbnail a /\ sp_metadata r = sp_metadata a /\ sp_files r = sp_files a.

(** Color separations (14.11.4): the information is an entry of the page. *)
Definition read_page_separation decode (depth : nat) (file : bytes) : option (list (option val)) :=
  bind (document_pages decode depth file) (fun pages => Some (map (fun p => lookup (lit "SeparationInfo") (snd p)) pages)).
