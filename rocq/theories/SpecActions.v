(** Specification: what happens in a document on which event (ISO 32000-1, 12.6, 13.2): the actions of annotations and the additional actions of the
    document, of pages, of annotations and of form fields, with all that actions refer to: places, files and their contents, scripts, form fields, media. *)

From Coq Require Import ZArith List Bool.
From Verif Require ModelCmap ModelContent SpecContent.
From Verif Require Import Bytes ModelFloat ModelBuf ModelObject ModelChunk ModelColor ModelSmall ModelPdf ModelTw ModelEnums ModelRoles ModelTwArgs
  ModelTwFiles ModelTwGraphics ModelTwAnnot ModelTwForms ModelTwAttr ModelTwXObj ModelTwFonts ModelTwDoc ModelFontDesc ModelDoc
  SpecLex SpecObj SpecText SpecMeans SpecRenum SpecChunk SpecFile SpecPdf SpecTyped SpecColor SpecSmall SpecTw SpecEnums SpecRoles SpecTwArgs
  SpecTwFiles SpecTwGraphics SpecTwAnnot SpecTwForms SpecTwAttr SpecTwXObj SpecTwFonts SpecTwDoc SpecFontDesc SpecDoc SpecPages SpecExtract SpecNav SpecViews.
From Verif Require SpecForm SpecAppear SpecInfo.
Import ListNotations.
Local Open Scope Z_scope.

(** ** What is read *)

(** A file (7.11.3): its name, the name for old readers, a description, what it is to the document, and, if it is embedded, its type, size, dates,
    checksum and contents (7.11.4). *)
Record file_params := mkParams { fp_size : option Z; fp_created : option rdate; fp_modified : option rdate; fp_checksum : option bytes }.
Record embedded := mkEmbedded { em_content : bytes; em_type : option bytes; em_params : option file_params }.
Record file_of := mkFile { fi_name : option (list Z); fi_path : option bytes; fi_description : option (list Z); fi_system : option bytes; fi_volatile : option bool;
  fi_kind : option AssociationKind; fi_embedded : option embedded }.
(** Media (13.2.4): where the data is and what it is. *)
Record clip := mkClip { cl_type : option MediaClipType; cl_name : option (list Z); cl_data : option file_of; cl_mime : option bytes;
  cl_permissions : option (option TempFileType); cl_alternatives : option (list (list Z)) }.
Record rendition := mkRendition { re_type : option RenditionType; re_name : option (list Z); re_clip : option clip; re_controls : option (option bool) }.
Inductive script := ScriptText (t : list Z) | ScriptStream (content : bytes).
(** An action; [P] for places in the document.  Form fields are given by object or by name, flags by their positions. *)
Record action (P : Type) := mkAction {
  ac_type : ActionType; ac_place : option P; ac_file : option file_of; ac_new_window : option bool; ac_uri : option bytes; ac_map : option bool;
  ac_script : option script; ac_fields : option (list (Z + list Z)); ac_flags : option (list Z);
  ac_operation : option RenditionOperation; ac_annotation : option Z; ac_rendition : option rendition }.
Arguments mkAction {P}. Arguments ac_type {P}. Arguments ac_place {P}. Arguments ac_file {P}. Arguments ac_new_window {P}. Arguments ac_uri {P}. Arguments ac_map {P}.
Arguments ac_script {P}. Arguments ac_fields {P}. Arguments ac_flags {P}. Arguments ac_operation {P}. Arguments ac_annotation {P}. Arguments ac_rendition {P}.

(** Events, with the keys of tables 194 to 197. *)
Inductive event :=
| CursorEnters | CursorLeaves | MousePressed | MouseReleased | FocusGained | FocusLost | PageOpened | PageClosed | PageShown | PageHidden
| Typing | Formatting | Validating | Calculating
| Opened | Closed
| BeforeClosing | BeforeSaving | AfterSaving | BeforePrinting | AfterPrinting.
Definition field_events : list (bytes * event) := [
  (lit "E", CursorEnters); (lit "X", CursorLeaves); (lit "D", MousePressed); (lit "U", MouseReleased); (lit "Fo", FocusGained); (lit "Bl", FocusLost);
  (lit "PO", PageOpened); (lit "PC", PageClosed); (lit "PV", PageShown); (lit "PI", PageHidden);
  (lit "K", Typing); (lit "F", Formatting); (lit "V", Validating); (lit "C", Calculating)].
Definition page_events : list (bytes * event) := [(lit "O", Opened); (lit "C", Closed)].
Definition document_events : list (bytes * event) := [
  (lit "WC", BeforeClosing); (lit "WS", BeforeSaving); (lit "DS", AfterSaving); (lit "WP", BeforePrinting); (lit "DP", AfterPrinting)].

(** ** The reader *)

Definition read_boolean (v : val) : option bool := match v with VBool b => Some b | _ => None end.
Definition read_named {E} (table : list (bytes * E)) (v : val) : option E := bind (read_name v) (fun n => by_name n table).
Definition read_numbered {E} (table : list (Z * E)) (v : val) : option E := bind (read_int v) (fun n => by_number n table).
Definition read_list {A} (f : val -> option A) (v : val) : option (list A) := match v with VArr l => all_of (map f l) | _ => None end.
Section Reader.
  Variable decode : option val -> bytes -> option bytes.
  Variable resolved : Z -> option indirect.
  Definition read_params (v : val) : option file_params :=
    bind (object_dict resolved v) (fun d =>
    bind (optional (lit "Size") d read_int) (fun size => bind (optional (lit "CreationDate") d SpecInfo.read_date) (fun created =>
    bind (optional (lit "ModDate") d SpecInfo.read_date) (fun modified => bind (optional (lit "CheckSum") d read_string) (fun checksum =>
    Some (mkParams size created modified checksum)))))).
  Definition read_embedded (id : Z) : option embedded :=
    match resolved id with
    | Some (IStream _ _ d _) =>
        bind (stream_content decode resolved id) (fun content => bind (optional (lit "Subtype") d read_name) (fun type =>
        bind (optional (lit "Params") d read_params) (fun params => Some (mkEmbedded content type params))))
    | _ => None
    end.
  Definition read_file_of (v : val) : option file_of :=
    bind (object_dict resolved v) (fun d =>
    bind (optional (lit "UF") d read_textstring) (fun name => bind (optional (lit "F") d read_string) (fun path =>
    bind (optional (lit "Desc") d read_textstring) (fun description =>
    bind (optional (lit "FS") d read_name) (fun system => bind (optional (lit "V") d read_boolean) (fun volatile =>
    bind (optional (lit "AFRelationship") d (read_named AssociationKind_table)) (fun kind =>
    bind (optional (lit "EF") d (fun ef => bind (object_dict resolved ef) (fun files =>
      required (lit "F") files (fun f => bind (read_id f) read_embedded)))) (fun content =>
    Some (mkFile name path description system volatile kind content))))))))).
  Definition read_clip (v : val) : option clip :=
    bind (object_dict resolved v) (fun d =>
    bind (optional (lit "S") d (read_named MediaClipType_table)) (fun type => bind (optional (lit "N") d read_textstring) (fun name =>
    bind (optional (lit "D") d read_file_of) (fun data => bind (optional (lit "CT") d read_string) (fun mime =>
    bind (optional (lit "P") d (fun p => bind (object_dict resolved p) (fun p =>
      optional (lit "TF") p (fun v => bind (read_string v) (fun s => by_name s TempFileType_table))))) (fun permissions =>
    bind (optional (lit "Alt") d (read_list read_textstring)) (fun alternatives =>
    Some (mkClip type name data mime permissions alternatives)))))))).
  Definition read_rendition (v : val) : option rendition :=
    bind (object_dict resolved v) (fun d =>
    bind (optional (lit "S") d (read_named RenditionType_table)) (fun type => bind (optional (lit "N") d read_textstring) (fun name =>
    bind (optional (lit "C") d read_clip) (fun c =>
    bind (optional (lit "P") d (fun p => bind (object_dict resolved p) (fun p =>
      optional (lit "BE") p (fun be => bind (object_dict resolved be) (fun be => required (lit "C") be read_boolean))))) (fun controls =>
    Some (mkRendition type name c controls)))))).
  Definition read_script (v : val) : option script :=
    match v with VRef id 0 => option_map ScriptStream (stream_content decode resolved id) | _ => option_map ScriptText (read_textstring v) end.
  Definition read_field_of (v : val) : option (Z + list Z) := match v with VRef id 0 => Some (inl id) | _ => option_map inr (read_textstring v) end.
  Variables (pages : list Z) (dests : option (list (bytes * val))).
  Definition read_action (v : val) : option (action (nat * bytes)) :=
    bind (object_dict resolved v) (fun d =>
    required (lit "S") d (fun t => bind (read_named ActionType_table t) (fun type =>
    bind (match type with ActionType_GoTo => optional (lit "D") d (read_place pages dests) | _ => Some None end) (fun place =>
    bind (optional (lit "F") d read_file_of) (fun file => bind (optional (lit "NewWindow") d read_boolean) (fun new_window =>
    bind (optional (lit "URI") d read_string) (fun uri => bind (optional (lit "IsMap") d read_boolean) (fun map_ =>
    bind (optional (lit "JS") d read_script) (fun script => bind (optional (lit "Fields") d (read_list read_field_of)) (fun fields =>
    bind (optional (lit "Flags") d SpecAppear.flag_positions) (fun flags =>
    bind (optional (lit "OP") d (read_numbered RenditionOperation_table)) (fun operation =>
    bind (optional (lit "AN") d read_id) (fun annotation => bind (optional (lit "R") d read_rendition) (fun rendition =>
    Some (mkAction type place file new_window uri map_ script fields flags operation annotation rendition))))))))))))))).
  (** Additional actions: what happens on which event. *)
  Definition read_events (table : list (bytes * event)) (v : val) : option (list (event * action (nat * bytes))) :=
    bind (object_dict resolved v) (fun d => all_of (map (fun e => bind (by_name (fst e) table) (fun t => option_map (pair t) (read_action (snd e)))) d)).
  Definition events_in (table : list (bytes * event)) (d : list (bytes * val)) : option (list (event * action (nat * bytes))) :=
    option_map (fun l => match l with Some l => l | None => [] end) (optional (lit "AA") d (read_events table)).
  (** What happens when an annotation is activated, and on other events. *)
  Definition annotation_events (v : val) : option (option (action (nat * bytes)) * list (event * action (nat * bytes))) :=
    bind (object_dict resolved v) (fun d => bind (optional (lit "A") d read_action) (fun a => option_map (pair a) (events_in field_events d))).
  Definition page_annotation_events (page : list (bytes * val)) :=
    match lookup (lit "Annots") page with None => Some [] | Some v => read_list annotation_events v end.
  (** A form field and all below it. *)
  Fixpoint fields_events (depth : nat) (v : val) : option (list (list (event * action (nat * bytes)))) :=
    match depth with
    | O => None
    | S n =>
        bind (object_dict resolved v) (fun d => bind (events_in field_events d) (fun own =>
        match lookup (lit "Kids") d with
        | None => Some [own]
        | Some (VArr kids) => option_map (cons own) (concat_all (map (fields_events n) kids))
        | Some _ => None
        end))
    end.
End Reader.
Definition with_document {A} decode (depth : nat) (file : bytes) (f : list (bytes * val) -> list (Z * list (bytes * val)) -> option (list (bytes * val)) -> option A) : option A :=
  bind (document_catalog decode file) (fun c => bind (document_pages decode depth file) (fun pages => bind (document_dests decode file) (fun dests => f c pages dests))).
(** Of the document, of every page, of the annotations of every page, of the fields of the form. *)
Definition read_document_events decode (depth : nat) (file : bytes) :=
  with_document decode depth file (fun c pages dests => events_in decode (resolve decode file) (map fst pages) dests document_events c).
Definition read_page_events decode (depth : nat) (file : bytes) :=
  with_document decode depth file (fun c pages dests =>
    all_of (map (fun p => events_in decode (resolve decode file) (map fst pages) dests page_events (snd p)) pages)).
Definition read_annotation_events decode (depth : nat) (file : bytes) :=
  with_document decode depth file (fun c pages dests =>
    all_of (map (fun p => page_annotation_events decode (resolve decode file) (map fst pages) dests (snd p)) pages)).
Definition read_field_events decode (depth : nat) (file : bytes) :=
  with_document decode depth file (fun c pages dests =>
    required (lit "AcroForm") c (fun form => bind (object_dict (resolve decode file) form) (fun form => required (lit "Fields") form (fun v =>
    match v with VArr l => concat_all (map (fields_events decode (resolve decode file) (map fst pages) dests depth) l) | _ => None end)))).

(** ** The program *)

(** A part with a writer of its own: not there, or written with calls for which [P] holds. *)
Definition part_given {C A} (given : option C -> Prop) (P : C -> A -> Prop) (a : option A) : Prop :=
  match a with None => given None | Some a => exists calls, given (Some calls) /\ P calls a end.
Section Written.
  Variables (decode : option val -> bytes -> option bytes) (ops : list doc_op).
  Definition date_is (d : date) (r : rdate) : Prop := r = date_reading d.
  Definition params_written (calls : EmbeddingParams_calls) (p : file_params) : Prop :=
    called (lit "Size") <| EmbeddingParams_size n => n |> calls (fp_size p) /\
    part_given (called (lit "CreationDate") <| EmbeddingParams_creation_date d => d |> calls) date_is (fp_created p) /\
    part_given (called (lit "ModDate") <| EmbeddingParams_modification_date d => d |> calls) date_is (fp_modified p) /\
    called (lit "CheckSum") <| EmbeddingParams_checksum c => c |> calls (fp_checksum p).
  (** The file is embedded, with one or two entries for it. *)
  Definition embedded_written (e : Z + Z) (x : embedded) : Prop :=
    exists data calls, In (DocTyped (match e with inl id | inr id => id end) (Ck_embedded_file data calls)) ops /\ stored_with decode calls data (em_content x) /\
      stream_called (lit "Subtype") (fun _ => []) <| EmbeddedFile_subtype t => t |> calls (em_type x) /\
      part_given (stream_called (lit "Params") (fun _ => []) <| EmbeddedFile_params c => c |> calls) params_written (em_params x).
  Definition file_written (calls : FileSpec_calls) (f : file_of) : Prop :=
    called (lit "UF") <| FileSpec_unic_file t => t |> calls (fi_name f) /\
    called (lit "F") <| FileSpec_path p => p |> calls (fi_path f) /\
    called (lit "Desc") <| FileSpec_description t => t |> calls (option_map TextPlain (fi_description f)) /\
    called (lit "FS") <| FileSpec_file_system n => n |> calls (fi_system f) /\
    called (lit "V") <| FileSpec_volatile b => b |> calls (fi_volatile f) /\
    called (lit "AFRelationship") <| FileSpec_association_kind k => k |> calls (fi_kind f) /\
    part_given (called (lit "EF")
      (fun c => match c with FileSpec_embedded_file id => [inl (inl id)] | FileSpec_embedded_file_with_unicode id => [inl (inr id)] | _ => [] end) calls)
      embedded_written (fi_embedded f).
  Definition clip_written (calls : MediaClip_calls) (c : clip) : Prop :=
    called (lit "S") <| MediaClip_subtype t => t |> calls (cl_type c) /\
    called (lit "N") <| MediaClip_name t => t |> calls (option_map TextPlain (cl_name c)) /\
    part_given (called (lit "D") <| MediaClip_data c => c |> calls) file_written (cl_data c) /\
    called (lit "CT") <| MediaClip_data_type t => t |> calls (cl_mime c) /\
    part_given (called (lit "P") <| MediaClip_permissions c => c |> calls)
      (fun calls => called (lit "TF") (fun c => match c with MediaPermissions_temp_file t => [inl t] end) calls) (cl_permissions c) /\
    called (lit "Alt") <| MediaClip_alt_texts l => l |> calls (cl_alternatives c).
  Definition rendition_written (calls : Rendition_calls) (r : rendition) : Prop :=
    called (lit "S") <| Rendition_subtype t => t |> calls (re_type r) /\
    called (lit "N") <| Rendition_name t => t |> calls (option_map TextPlain (re_name r)) /\
    part_given (called (lit "C") <| Rendition_media_clip c => c |> calls) clip_written (re_clip r) /\
    part_given (called (lit "P") <| Rendition_media_play_params c => c |> calls)
      (fun calls => called (lit "BE") (fun c => match c with MediaPlayParams_controls b => [inl b] end) calls) (re_controls r).
  Definition script_given (s : list Z + Z) (r : script) : Prop :=
    match s, r with
    | inl t, ScriptText t' => t = t'
    | inr id, ScriptStream content => exists data calls, In (DocTyped id (Ck_stream data calls)) ops /\ stored decode calls data content
    | _, _ => False
    end.
  Definition fields_given (calls : Fields_calls) (l : list (Z + list Z)) : Prop :=
    exists cs, calls = map TypedItem cs /\
      l = flat_map (fun c => match c with
        | Fields_id id => [inl id] | Fields_ids ids => map inl ids | Fields_name t => [inr t] | Fields_names ts => map inr ts end) cs.
  Definition form_positions (l : list FormActionFlags) : list Z :=
    List.filter (fun p => existsb (fun f => FormActionFlags_pos f =? p) l) (map Z.of_nat (seq 1 32)).
  Definition action_written (calls : Action_calls) (a : action place) : Prop :=
    called (lit "S") <| Action_action_type t => t |> calls (Some (ac_type a)) /\
    match ac_type a with
    | ActionType_GoTo =>
        called (lit "D") (fun c => match c with Action_destination calls => [inl (inl calls)] | Action_destination_named n => [inl (inr n)] | _ => [] end)
          calls (option_map place_argument (ac_place a))
    | _ => ac_place a = None
    end /\
    part_given (called (lit "F") <| Action_file_spec c => c |> calls) file_written (ac_file a) /\
    called (lit "NewWindow") <| Action_new_window b => b |> calls (ac_new_window a) /\
    called (lit "URI") <| Action_uri u => u |> calls (ac_uri a) /\
    called (lit "IsMap") <| Action_is_map b => b |> calls (ac_map a) /\
    part_given (called (lit "JS") (fun c => match c with Action_js_string t => [inl (inl t)] | Action_js_stream id => [inl (inr id)] | _ => [] end) calls)
      script_given (ac_script a) /\
    part_given (called (lit "Fields") <| Action_fields c => c |> calls) fields_given (ac_fields a) /\
    part_given (called (lit "Flags") <| Action_form_flags l => l |> calls) (fun l x => x = form_positions l) (ac_flags a) /\
    called (lit "OP") <| Action_operation o => o |> calls (ac_operation a) /\
    called (lit "AN") <| Action_annotation id => id |> calls (ac_annotation a) /\
    part_given (called (lit "R") <| Action_rendition c => c |> calls) rendition_written (ac_rendition a).

  (** The events of the methods of [AdditionalActions]; [annot_page_close] is left out, as it uses the key of another event (C48_page_close_refuted). *)
  Definition event_of (c : AdditionalActions_call) : option (event * Action_calls) :=
    match c with
    | AdditionalActions_annot_curser_enter a => Some (CursorEnters, a)
    | AdditionalActions_annot_cursor_exit a => Some (CursorLeaves, a)
    | AdditionalActions_annot_mouse_press a => Some (MousePressed, a)
    | AdditionalActions_annot_mouse_release a => Some (MouseReleased, a)
    | AdditionalActions_annot_page_open a => Some (PageOpened, a)
    | AdditionalActions_annot_page_close _ => None
    | AdditionalActions_annot_page_visible a => Some (PageShown, a)
    | AdditionalActions_annot_page_invisible a => Some (PageHidden, a)
    | AdditionalActions_widget_focus a => Some (FocusGained, a)
    | AdditionalActions_widget_focus_loss a => Some (FocusLost, a)
    | AdditionalActions_page_open a => Some (Opened, a)
    | AdditionalActions_page_close a => Some (Closed, a)
    | AdditionalActions_form_calculate_partial a => Some (Typing, a)
    | AdditionalActions_form_format a => Some (Formatting, a)
    | AdditionalActions_form_validate a => Some (Validating, a)
    | AdditionalActions_form_calculate a => Some (Calculating, a)
    | AdditionalActions_cat_before_close a => Some (BeforeClosing, a)
    | AdditionalActions_cat_before_save a => Some (BeforeSaving, a)
    | AdditionalActions_cat_after_save a => Some (AfterSaving, a)
    | AdditionalActions_cat_before_print a => Some (BeforePrinting, a)
    | AdditionalActions_cat_after_print a => Some (AfterPrinting, a)
    end.
  Definition on_event : Type := (event * action place)%type.
  Definition events_given (table : list (bytes * event)) (calls : AdditionalActions_calls) (l : list on_event) : Prop :=
    Forall2 (fun c x => exists c' acalls, c = Typed c' /\ event_of c' = Some (fst x, acalls) /\ In (fst x) (map snd table) /\ action_written acalls (snd x)) calls l.
  (** No additional actions, or some. *)
  Definition events_written (table : list (bytes * event)) (given : option AdditionalActions_calls -> Prop) (l : list on_event) : Prop :=
    (l = [] /\ given None) \/ exists calls, given (Some calls) /\ events_given table calls l.
  Definition document_events_written (catalog : Catalog_calls) : list on_event -> Prop :=
    events_written document_events (called (lit "AA") <| Catalog_additional_actions c => c |> catalog).
  Definition page_events_written (page : Z) (l : list on_event) : Prop :=
    exists calls, In (DocTyped page (Ck_page calls)) ops /\ events_written page_events (called (lit "AA") <| Page_additional_actions c => c |> calls) l.
  (** An annotation, or a field that may be made one. *)
  Definition own_events (calls : SpecAppear.annotation_calls) : option AdditionalActions_calls -> Prop :=
    match calls with
    | inl calls => called (lit "AA") <| Annotation_additional_actions c => c |> calls
    | inr calls => SpecForm.field_called (lit "AA") <| Field_additional_actions c => c |> <| Annotation_additional_actions c => c |> calls
    end.
  Definition annotation_events_written (id : Z) (a : option (action place)) (l : list on_event) : Prop :=
    exists calls, In (DocTyped id match calls with inl calls => Ck_annotation calls | inr calls => Ck_form_field calls end) ops /\
      part_given (SpecAppear.annotation_called (lit "A") <| Annotation_action c => c |> calls) action_written a /\
      events_written field_events (own_events calls) l.
  Definition page_annotation_events_written (page : Z) (l : list (Z * (option (action place) * list on_event))) : Prop :=
    SpecForm.page_lists ops page (map fst l) /\ Forall (fun x => annotation_events_written (fst x) (fst (snd x)) (snd (snd x))) l.
  (** Fields, with the fields or widgets below them; a widget can be written as an annotation. *)
  Inductive field_tree := FieldTree (id : Z) (l : list on_event) (kids : option (list field_tree)).
  Definition ft_id (t : field_tree) : Z := match t with FieldTree id _ _ => id end.
  Definition own_kids (calls : SpecAppear.annotation_calls) : option (list Z) -> Prop :=
    match calls with
    | inl calls => called (lit "Kids") (fun _ => []) calls
    | inr calls => SpecForm.field_kids calls
    end.
  Fixpoint field_tree_written (t : field_tree) : Prop :=
    match t with
    | FieldTree id l kids =>
        (exists calls, In (DocTyped id match calls with inl calls => Ck_annotation calls | inr calls => Ck_form_field calls end) ops /\
          events_written field_events (own_events calls) l /\ own_kids calls (option_map (map ft_id) kids)) /\
        match kids with None => True | Some kids => (fix all l := match l with [] => True | t :: l => field_tree_written t /\ all l end) kids end
    end.
  Definition form_events_written (catalog : Catalog_calls) (l : list field_tree) : Prop :=
    exists calls, called (lit "AcroForm") <| Catalog_form c => c |> catalog (Some calls) /\
      called (lit "Fields") <| Form_fields ids => ids |> calls (Some (map ft_id l)) /\ Forall field_tree_written l.
End Written.
Fixpoint ft_events (t : field_tree) : list (list on_event) :=
  match t with FieldTree _ l kids => l :: match kids with None => [] | Some kids => flat_map ft_events kids end end.

(** What is to be read: places as pages and views. *)
Section Asked.
  Variables (pages : list Z) (named : list (bytes * explicit_place)).
  Definition asked_action (a : action place) : option (action (nat * bytes)) :=
    option_map (fun p => mkAction (ac_type a) p (ac_file a) (ac_new_window a) (ac_uri a) (ac_map a) (ac_script a) (ac_fields a) (ac_flags a)
        (ac_operation a) (ac_annotation a) (ac_rendition a))
      (match ac_place a with None => Some None | Some p => option_map Some (asked_place pages named p) end).
  Definition asked_events (l : list on_event) : option (list (event * action (nat * bytes))) :=
    all_of (map (fun x => option_map (pair (fst x)) (asked_action (snd x))) l).
  Definition asked_annotation_events (x : Z * (option (action place) * list on_event)) : option (option (action (nat * bytes)) * list (event * action (nat * bytes))) :=
    bind (match fst (snd x) with None => Some None | Some a => option_map Some (asked_action a) end) (fun a => option_map (pair a) (asked_events (snd (snd x)))).
End Asked.
