(** Specification: how a reader gets the properties of a document: its version, identifier, information dictionary, metadata, language and
    initial view (ISO 32000-1, 7.5.2, 7.7.2, 14.3, 14.4), and what a program asks for. *)

From Coq Require Import ZArith List Bool.
From Verif Require ModelCmap ModelContent SpecContent.
From Verif Require Import Bytes ModelFloat ModelBuf ModelObject ModelChunk ModelColor ModelSmall ModelPdf ModelTw ModelEnums ModelRoles ModelTwArgs
  ModelTwFiles ModelTwGraphics ModelTwAnnot ModelTwForms ModelTwAttr ModelTwXObj ModelTwFonts ModelTwDoc ModelFontDesc ModelDoc
  SpecLex SpecObj SpecText SpecMeans SpecRenum SpecChunk SpecFile SpecPdf SpecTyped SpecColor SpecSmall SpecTw SpecEnums SpecRoles SpecTwArgs
  SpecTwFiles SpecTwGraphics SpecTwAnnot SpecTwForms SpecTwAttr SpecTwXObj SpecTwFonts SpecTwDoc SpecFontDesc SpecDoc SpecPages SpecExtract SpecNav SpecViews.
Import ListNotations.
Local Open Scope Z_scope.

(** ** The reader *)

Record info_read := mkInfo {
  if_title : option (list Z); if_author : option (list Z); if_subject : option (list Z); if_keywords : option (list Z);
  if_creator : option (list Z); if_producer : option (list Z); if_created : option rdate; if_modified : option rdate; if_trapped : option TrappingStatus }.
Record properties := mkProperties {
  pr_version : Z * Z; pr_id : option (bytes * bytes); pr_info : option info_read;
  pr_metadata : option bytes; pr_lang : option (list Z); pr_layout : option PageLayout; pr_mode : option PageMode }.

Definition read_decimal (s : bytes) : option Z := match s with [] => None | _ => if forallb is_digit s then Some (digits_val s) else None end.
(** Two decimal numbers with a period between them. *)
Definition read_version_number (s : bytes) : option (Z * Z) :=
  match span is_digit s with
  | (a, c :: b) => if Byte.eqb c x2e then bind (read_decimal a) (fun a => bind (read_decimal b) (fun b => Some (a, b))) else None
  | _ => None
  end.
(** The first line of the file. *)
Definition header_version (file : bytes) : option (Z * Z) :=
  bind (strip (lit "%PDF-") file) (fun r => read_version_number (fst (span (fun c => negb (Byte.eqb c x0a)) r))).
(** The version in the catalog counts if it is later. *)
Definition later (a b : Z * Z) : Z * Z := if (fst a <? fst b) || ((fst a =? fst b) && (snd a <? snd b)) then b else a.
Definition read_date (v : val) : option rdate := match v with VStr s => date_parse s | _ => None end.
Definition named {E} (table : list (bytes * E)) (v : val) : option E := bind (read_name v) (fun n => by_name n table).
Definition read_info (resolved : Z -> option indirect) (v : val) : option info_read :=
  bind (object_dict resolved v) (fun d =>
  let text k := optional k d read_textstring in
  bind (text (lit "Title")) (fun title => bind (text (lit "Author")) (fun author => bind (text (lit "Subject")) (fun subject =>
  bind (text (lit "Keywords")) (fun keywords => bind (text (lit "Creator")) (fun creator => bind (text (lit "Producer")) (fun producer =>
  bind (optional (lit "CreationDate") d read_date) (fun created => bind (optional (lit "ModDate") d read_date) (fun modified =>
  bind (optional (lit "Trapped") d (named TrappingStatus_table)) (fun trapped =>
  Some (mkInfo title author subject keywords creator producer created modified trapped))))))))))).
Definition read_file_id (v : val) : option (bytes * bytes) := match v with VArr [VStr a; VStr b] => Some (a, b) | _ => None end.
Definition read_properties (decode : option val -> bytes -> option bytes) (file : bytes) : option properties :=
  bind (header_version file) (fun header =>
  bind (read_file decode file) (fun r => let trailer := snd r in
  bind (optional (lit "ID") trailer read_file_id) (fun id =>
  bind (optional (lit "Info") trailer (read_info (resolve decode file))) (fun info =>
  bind (document_catalog decode file) (fun c =>
  bind (optional (lit "Version") c (fun v => bind (read_name v) read_version_number)) (fun version =>
  bind (optional (lit "Metadata") c (fun v => bind (read_id v) (stream_content decode (resolve decode file)))) (fun metadata =>
  bind (optional (lit "Lang") c read_textstring) (fun lang =>
  bind (optional (lit "PageLayout") c (named PageLayout_table)) (fun layout =>
  bind (optional (lit "PageMode") c (named PageMode_table)) (fun mode =>
  Some (mkProperties (match version with Some v => later header v | None => header end) id info metadata lang layout mode))))))))))).

(** ** The program *)

(** The last call of a kind counts. *)
Definition doc_last {A} (f : doc_op -> option A) (ops : list doc_op) : option A :=
  fold_left (fun a op => match f op with Some x => Some x | None => a end) ops None.
Definition doc_info : list doc_op -> option Z := doc_last (fun op => match op with DocInfo id _ | DocOther (PdfInfo id _) => Some id | _ => None end).
Definition doc_file_id : list doc_op -> option (bytes * bytes) := doc_last (fun op => match op with DocOther (PdfFileId id) => Some id | _ => None end).
(** Numbers above 9 are ignored. *)
Definition doc_major (ops : list doc_op) : Z :=
  match doc_last (fun op => match op with DocOther (PdfVersion m _) => if m <? 10 then Some m else None | _ => None end) ops with Some m => m | None => 1 end.
Definition doc_minor (ops : list doc_op) : Z :=
  match doc_last (fun op => match op with DocOther (PdfVersion _ m) => if m <? 10 then Some m else None | _ => None end) ops with Some m => m | None => 7 end.

(** What is asked for in the information dictionary. *)
Record info_asked := mkAskedInfo {
  ia_title : option (list Z); ia_author : option (list Z); ia_subject : option (list Z); ia_keywords : option (list Z);
  ia_creator : option (list Z); ia_producer : option (list Z); ia_created : option date; ia_modified : option date; ia_trapped : option TrappingStatus }.
Definition info_given (calls : DocumentInfo_calls) (a : info_asked) : Prop :=
  called (lit "Title") <| DocumentInfo_title t => t |> calls (option_map TextPlain (ia_title a)) /\
  called (lit "Author") <| DocumentInfo_author t => t |> calls (option_map TextPlain (ia_author a)) /\
  called (lit "Subject") <| DocumentInfo_subject t => t |> calls (option_map TextPlain (ia_subject a)) /\
  called (lit "Keywords") <| DocumentInfo_keywords t => t |> calls (option_map TextPlain (ia_keywords a)) /\
  called (lit "Creator") <| DocumentInfo_creator t => t |> calls (option_map TextPlain (ia_creator a)) /\
  called (lit "Producer") <| DocumentInfo_producer t => t |> calls (option_map TextPlain (ia_producer a)) /\
  called (lit "CreationDate") <| DocumentInfo_creation_date d => d |> calls (ia_created a) /\
  called (lit "ModDate") <| DocumentInfo_modified_date d => d |> calls (ia_modified a) /\
  called (lit "Trapped") <| DocumentInfo_trapped t => t |> calls (ia_trapped a).
Definition info_written (ops : list doc_op) (a : option info_asked) : Prop :=
  match a, doc_info ops with
  | None, None => True
  | Some a, Some id => exists calls, In (DocInfo id calls) ops /\ info_given calls a
  | _, _ => False
  end.
Definition metadata_written decode (ops : list doc_op) (catalog : Catalog_calls) (content : option bytes) : Prop :=
  let given := called (lit "Metadata") <| Catalog_metadata id => id |> catalog in
  match content with
  | None => given None
  | Some content => exists id data calls, given (Some id) /\ In (DocTyped id (Ck_metadata data calls)) ops /\ stored_with decode calls data content
  end.
Record properties_asked := mkAskedProperties {
  pa_version : option (Z * Z); pa_info : option info_asked; pa_metadata : option bytes; pa_lang : option (list Z);
  pa_layout : option PageLayout; pa_mode : option PageMode }.
Definition properties_written decode (ops : list doc_op) (catalog : Catalog_calls) (a : properties_asked) : Prop :=
  called (lit "Version") <| Catalog_version major minor => (major, minor) |> catalog (pa_version a) /\
  info_written ops (pa_info a) /\ metadata_written decode ops catalog (pa_metadata a) /\
  called (lit "Lang") <| Catalog_lang t => t |> catalog (pa_lang a) /\
  called (lit "PageLayout") <| Catalog_page_layout l => l |> catalog (pa_layout a) /\
  called (lit "PageMode") <| Catalog_page_mode m => m |> catalog (pa_mode a).
Definition asked_info (a : info_asked) : info_read :=
  mkInfo (ia_title a) (ia_author a) (ia_subject a) (ia_keywords a) (ia_creator a) (ia_producer a)
    (option_map date_reading (ia_created a)) (option_map date_reading (ia_modified a)) (ia_trapped a).
Definition asked_properties (ops : list doc_op) (a : properties_asked) : properties :=
  let header := (doc_major ops, doc_minor ops) in
  mkProperties (match pa_version a with Some v => later header v | None => header end) (doc_file_id ops) (option_map asked_info (pa_info a))
    (pa_metadata a) (pa_lang a) (pa_layout a) (pa_mode a).
