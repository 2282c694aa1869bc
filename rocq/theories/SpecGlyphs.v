(** Specification: how a reader gets the glyphs of the fonts of the pages: widths, glyph names, glyph procedures, font programs
    (ISO 32000-1, 9.6 to 9.9), and what a program asks for. *)

From Coq Require Import ZArith List Bool.
From Verif Require ModelCmap ModelContent SpecContent.
From Verif Require Import Bytes ModelFloat ModelBuf ModelObject ModelChunk ModelColor ModelSmall ModelPdf ModelTw ModelEnums ModelRoles ModelTwArgs
  ModelTwFiles ModelTwGraphics ModelTwAnnot ModelTwForms ModelTwAttr ModelTwXObj ModelTwFonts ModelTwDoc ModelFontDesc ModelDoc
  SpecLex SpecObj SpecText SpecMeans SpecRenum SpecChunk SpecFile SpecPdf SpecTyped SpecColor SpecSmall SpecTw SpecEnums SpecRoles SpecTwArgs
  SpecTwFiles SpecTwGraphics SpecTwAnnot SpecTwForms SpecTwAttr SpecTwXObj SpecTwFonts SpecTwDoc SpecFontDesc SpecDoc SpecPages SpecExtract SpecNav SpecViews.
Import ListNotations.
Local Open Scope Z_scope.

(** The last assignment to a code counts. *)
Definition last_for {A} (c : Z) (l : list (Z * A)) : option A := fold_left (fun a e => if fst e =? c then Some (snd e) else a) l None.

(** ** The reader *)

(** The three ways to embed a font program. *)
Inductive font_file := FontFile | FontFile2 | FontFile3.
Definition file_key (f : font_file) : bytes :=
  match f with FontFile => lit "FontFile" | FontFile2 => lit "FontFile2" | FontFile3 => lit "FontFile3" end.
(** How glyphs are found in the font program: by a named rule, or with a table. *)
Inductive glyph_map := NamedMap (n : bytes) | TableMap (content : bytes).
(** A font: its type, its name, the name of its (base) encoding, the glyph names its encoding gives to codes, the widths of codes (or of
    CIDs; none where the default of the standard applies), the operations that draw the glyphs with a name, the font program, the map. *)
Record font_seen := mkFontSeen {
  fo_type : bytes; fo_base : option bytes; fo_encoding : option bytes; fo_glyph : Z -> option bytes; fo_width : Z -> option val;
  fo_proc : bytes -> option (list operation); fo_program : option (font_file * bytes); fo_map : option glyph_map }.

Section Reader.
  Variable decode : option val -> bytes -> option bytes.
  Variable resolved : Z -> option indirect.
  Definition read_diffs (v : val) : option (list (Z * bytes)) := match v with VArr vs => read_differences None vs | _ => None end.
  Definition read_encoding (d : list (bytes * val)) : option (option bytes * list (Z * bytes)) :=
    match lookup (lit "Encoding") d with
    | None => Some (None, [])
    | Some (VName n) => Some (Some n, [])
    | Some e =>
        bind (object_dict resolved e) (fun e =>
        bind (optional (lit "BaseEncoding") e read_name) (fun base =>
        bind (optional (lit "Differences") e read_diffs) (fun diffs =>
        Some (base, match diffs with Some l => l | None => [] end))))
    end.
  (** Codes outside of the range have the missing width. *)
  Definition simple_width (d : list (bytes * val)) (missing : option val) (code : Z) : option val :=
    match lookup (lit "FirstChar") d, lookup (lit "LastChar") d, lookup (lit "Widths") d with
    | Some (VInt first), Some (VInt last), Some (VArr ws) =>
        if (first <=? code) && (code <=? last) then nth_error ws (Z.to_nat (code - first)) else missing
    | _, _, _ => missing
    end.
  Fixpoint first_program (fs : list font_file) (desc : list (bytes * val)) : option (option (font_file * bytes)) :=
    match fs with
    | [] => Some None
    | f :: fs =>
        match lookup (file_key f) desc with
        | Some v => bind (read_id v) (fun id => option_map (fun s => Some (f, s)) (stream_content decode resolved id))
        | None => first_program fs desc
        end
    end.
  (** The missing width and the font program. *)
  Definition read_descriptor (d : list (bytes * val)) : option (option val * option (font_file * bytes)) :=
    match lookup (lit "FontDescriptor") d with
    | None => Some (None, None)
    | Some v =>
        bind (object_dict resolved v) (fun desc =>
        option_map (fun p => (lookup (lit "MissingWidth") desc, p)) (first_program [FontFile; FontFile2; FontFile3] desc))
    end.
  Definition read_proc (procs : option (list (bytes * val))) (name : bytes) : option (list operation) :=
    bind procs (fun procs => required name procs (fun v => bind (read_id v) (fun id =>
    bind (stream_content decode resolved id) SpecContent.parse_content))).
  Definition read_map (v : val) : option glyph_map :=
    match v with VName n => Some (NamedMap n) | VRef id 0 => option_map TableMap (stream_content decode resolved id) | _ => None end.
  Definition read_width_array (v : val) : option (list (Z * val)) := match v with VArr vs => read_widths vs | _ => None end.
  Definition see_font (v : val) : option font_seen :=
    bind (object_dict resolved v) (fun d =>
    required (lit "Subtype") d (fun t => bind (read_name t) (fun type =>
    bind (optional (lit "BaseFont") d read_name) (fun base =>
    bind (read_encoding d) (fun e =>
    if bytes_eqb type (lit "Type0") then
      required (lit "DescendantFonts") d (fun l =>
      match l with
      | VArr [c] =>
          bind (object_dict resolved c) (fun c =>
          bind (read_descriptor c) (fun desc =>
          bind (optional (lit "W") c read_width_array) (fun ws =>
          bind (optional (lit "CIDToGIDMap") c read_map) (fun map =>
          let width cid := match last_for cid (match ws with Some l => l | None => [] end) with Some w => Some w | None => lookup (lit "DW") c end in
          Some (mkFontSeen type base (fst e) (fun c => last_for c (snd e)) width (fun _ => None) (snd desc) map)))))
      | _ => None
      end)
    else
      bind (read_descriptor d) (fun desc =>
      bind (optional (lit "CharProcs") d (object_dict resolved)) (fun procs =>
      Some (mkFontSeen type base (fst e) (fun c => last_for c (snd e)) (simple_width d (fst desc)) (read_proc procs) (snd desc) None)))))))).
  Definition see_fonts (res : val) : option (list (bytes * font_seen)) :=
    bind (object_dict resolved res) (fun r =>
    match lookup (lit "Font") r with
    | None => Some []
    | Some v => bind (object_dict resolved v) (fun fonts => all_of (map (fun e => option_map (pair (fst e)) (see_font (snd e))) fonts))
    end).
End Reader.
(** The fonts of every page, with the names the content uses for them. *)
Definition read_page_fonts decode (depth : nat) (file : bytes) : option (list (list (bytes * font_seen))) :=
  bind (document_views decode depth file) (fun pages =>
  all_of (map (fun p => see_fonts decode (resolve decode file) (snd (fst p))) pages)).

(** ** The program *)

Inductive encoding_asked :=
| NoEncoding
| Predefined (n : bytes)
| Custom (base : option bytes) (differences : option (list (Z * list bytes))).
Record descriptor_asked := mkDescriptor { de_missing : option f32; de_program : option (font_file * bytes) }.
(** First and last code, widths. *)
Definition widths_asked : Type := option (Z * Z * list f32).
Inductive font_asked :=
| AskType1 (base : option bytes) (e : encoding_asked) (ws : widths_asked) (desc : option descriptor_asked)
| AskType3 (e : encoding_asked) (ws : widths_asked) (desc : option descriptor_asked) (procs : list (bytes * (Z * list ModelContent.ccall)))
| AskType0 (base : option bytes) (encoding : bytes) (default : option f32) (ws : option (list width_call)) (desc : option descriptor_asked)
           (map : option glyph_map).

(** What is called on a font descriptor for a key. *)
Definition descriptor_called {A} (k : bytes) (sel : fd_call -> list (A + obj)) (calls : list fd_call) (a : option A) : Prop :=
  flat_map (fun c => match c with Fd_raw k' o => if bytes_eqb k k' then [inr o] else [] | _ => sel c end) calls = match a with Some a => [inl a] | None => [] end.
Definition file_call (f : font_file) : fd_call -> list (Z + obj) :=
  match f with FontFile => <| Fd_font_file id => id |> | FontFile2 => <| Fd_font_file2 id => id |> | FontFile3 => <| Fd_font_file3 id => id |> end.

Section Program.
  Variable decode : option val -> bytes -> option bytes.
  Variable ops : list doc_op.
  (** An encoding: given by its name, or with calls. *)
  Definition encoding_given (given : option (bytes + Encoding_calls) -> Prop) (e : encoding_asked) : Prop :=
    match e with
    | NoEncoding => given None
    | Predefined n => given (Some (inl n))
    | Custom base diffs => exists calls, given (Some (inr calls)) /\
        called (lit "BaseEncoding") <| Encoding_base_encoding n => n |> calls base /\
        called (lit "Differences") <| Encoding_differences l => l |> calls diffs
    end.
  Definition widths_given (first last : option Z -> Prop) (widths : option (list f32) -> Prop) (ws : widths_asked) : Prop :=
    match ws with None => widths None | Some (f, l, ws) => first (Some f) /\ last (Some l) /\ widths (Some ws) end.
  (** A stream written with [Chunk::stream] whose decoded content this is. *)
  Definition data_written (id : Z) (content : bytes) : Prop :=
    exists data scalls, In (DocTyped id (Ck_stream data scalls)) ops /\ stored decode scalls data content.
  Definition program_given (calls : list fd_call) (p : option (font_file * bytes)) : Prop :=
    let file f := descriptor_called (file_key f) (file_call f) calls in
    match p with
    | None => forall f, file f None
    | Some (f, content) => (exists id, file f (Some id) /\ data_written id content) /\ forall g, g <> f -> file g None
    end.
  Definition descriptor_given (given : option Z -> Prop) (d : option descriptor_asked) : Prop :=
    match d with
    | None => given None
    | Some d => exists id calls, given (Some id) /\ In (DocTyped id (Ck_font_descriptor calls)) ops /\
        descriptor_called (lit "MissingWidth") <| Fd_missing_width w => w |> calls (de_missing d) /\ program_given calls (de_program d)
    end.
  Definition map_given (calls : CidFont_calls) (m : option glyph_map) : Prop :=
    let given := called (lit "CIDToGIDMap") (fun c => match c with
      | CidFont_cid_to_gid_map_predefined n => [inl (inl n)] | CidFont_cid_to_gid_map_stream id => [inl (inr id)] | _ => [] end) calls in
    match m with
    | None => given None
    | Some (NamedMap n) => given (Some (inl n))
    | Some (TableMap content) => exists id, given (Some (inr id)) /\ data_written id content
    end.
  (** The type is what the writer itself writes: it is not given again. *)
  Definition glyphs_written (id : Z) (a : font_asked) : Prop :=
    match a with
    | AskType1 base e ws desc => exists calls, In (DocTyped id (Ck_type1_font calls)) ops /\
        called (lit "Subtype") no_method calls None /\ called (lit "CharProcs") no_method calls None /\
        called (lit "BaseFont") <| Type1Font_base_font n => n |> calls base /\
        encoding_given (called (lit "Encoding") (fun c => match c with
          | Type1Font_encoding_predefined n => [inl (inl n)] | Type1Font_encoding_custom cs => [inl (inr cs)] | _ => [] end) calls) e /\
        widths_given (called (lit "FirstChar") <| Type1Font_first_char c => c |> calls) (called (lit "LastChar") <| Type1Font_last_char c => c |> calls)
          (called (lit "Widths") <| Type1Font_widths ws => ws |> calls) ws /\
        descriptor_given (called (lit "FontDescriptor") <| Type1Font_font_descriptor id => id |> calls) desc
    | AskType3 e ws desc procs => exists calls, In (DocTyped id (Ck_type3_font calls)) ops /\
        called (lit "Subtype") no_method calls None /\ called (lit "BaseFont") no_method calls None /\
        encoding_given (called (lit "Encoding") (fun c => match c with
          | Type3Font_encoding_predefined n => [inl (inl n)] | Type3Font_encoding_custom cs => [inl (inr cs)] | _ => [] end) calls) e /\
        widths_given (called (lit "FirstChar") <| Type3Font_first_char c => c |> calls) (called (lit "LastChar") <| Type3Font_last_char c => c |> calls)
          (called (lit "Widths") <| Type3Font_widths ws => ws |> calls) ws /\
        descriptor_given (called (lit "FontDescriptor") <| Type3Font_font_descriptor id => id |> calls) desc /\
        called (lit "CharProcs") <| Type3Font_char_procs l => l |> calls (Some (map (fun p => (fst p, fst (snd p))) procs)) /\
        Forall (fun p => content_written decode ops (snd (snd p)) (fst (snd p))) procs
    | AskType0 base encoding default ws desc m => exists calls cid ccalls, In (DocTyped id (Ck_type0_font calls)) ops /\
        called (lit "Subtype") no_method calls None /\
        called (lit "BaseFont") <| Type0Font_base_font n => n |> calls base /\
        called (lit "Encoding") (fun c => match c with
          | Type0Font_encoding_predefined n => [inl (inl n)] | Type0Font_encoding_cmap id => [inl (inr id)] | _ => [] end) calls (Some (inl encoding)) /\
        called (lit "DescendantFonts") <| Type0Font_descendant_font id => id |> calls (Some cid) /\
        In (DocTyped cid (Ck_cid_font ccalls)) ops /\
        called (lit "DW") <| CidFont_default_width w => w |> ccalls default /\
        called (lit "W") <| CidFont_widths l => l |> ccalls ws /\
        descriptor_given (called (lit "FontDescriptor") <| CidFont_font_descriptor id => id |> ccalls) desc /\ map_given ccalls m
    end.
  (** The fonts in the resources of a page, with their names and ids. *)
  Definition page_fonts_written (page : page_asked) (l : list (bytes * (Z * font_asked))) : Prop :=
    ((l = [] /\ fonts_given (pa_resources page) None) \/ fonts_given (pa_resources page) (Some (map (fun f => (fst f, fst (snd f))) l))) /\
    Forall (fun f => glyphs_written (fst (snd f)) (snd (snd f))) l.
End Program.

Definition asked_type (a : font_asked) : bytes := match a with AskType1 _ _ _ _ => lit "Type1" | AskType3 _ _ _ _ => lit "Type3" | AskType0 _ _ _ _ _ _ => lit "Type0" end.
Definition asked_base (a : font_asked) : option bytes := match a with AskType1 base _ _ _ | AskType0 base _ _ _ _ _ => base | AskType3 _ _ _ _ => None end.
Definition asked_encoding_of (a : font_asked) : encoding_asked := match a with AskType1 _ e _ _ | AskType3 e _ _ _ => e | AskType0 _ e _ _ _ _ => Predefined e end.
Definition asked_encoding (a : font_asked) : option bytes := match asked_encoding_of a with NoEncoding => None | Predefined n => Some n | Custom base _ => base end.
(** The names are given to the codes from the first one of each call on. *)
Definition asked_glyph (a : font_asked) (code : Z) : option bytes :=
  match asked_encoding_of a with
  | Custom _ (Some calls) => last_for code (flat_map (fun c => numbered (fst c) (snd c)) calls)
  | _ => None
  end.
Definition asked_descriptor (a : font_asked) : option descriptor_asked := match a with AskType1 _ _ _ d | AskType3 _ _ d _ | AskType0 _ _ _ _ d _ => d end.
Definition asked_program (a : font_asked) : option (font_file * bytes) := match asked_descriptor a with Some d => de_program d | None => None end.
Definition asked_width (a : font_asked) (code : Z) : option f32 :=
  match a with
  | AskType1 _ _ ws desc | AskType3 _ ws desc _ =>
      let missing := match desc with Some d => de_missing d | None => None end in
      match ws with
      | Some (first, last, ws) => if (first <=? code) && (code <=? last) then nth_error ws (Z.to_nat (code - first)) else missing
      | None => missing
      end
  | AskType0 _ _ default ws _ _ =>
      match ws with
      | Some calls => match last_for code (flat_map asked_widths calls) with Some w => Some w | None => default end
      | None => default
      end
  end.
(** The first procedure with the name. *)
Definition asked_proc (a : font_asked) (name : bytes) : option (list ModelContent.ccall) :=
  match a with
  | AskType3 _ _ _ procs => (fix find l := match l with [] => None | (n, (_, calls)) :: r => if bytes_eqb name n then Some calls else find r end) procs
  | _ => None
  end.
Definition asked_map (a : font_asked) : option glyph_map := match a with AskType0 _ _ _ _ _ m => m | _ => None end.
Definition glyphs_are (a : font_asked) (r : font_seen) : Prop :=
  fo_type r = asked_type a /\ fo_base r = asked_base a /\ fo_encoding r = asked_encoding a /\
  (forall code, fo_glyph r code = asked_glyph a code) /\
  (forall code, match asked_width a code, fo_width r code with Some w, Some v => is_real w v | None, None => True | _, _ => False end) /\
  (forall name, match asked_proc a name, fo_proc r name with Some calls, Some l => Forall2 SpecContent.ccall_means calls l | None, None => True | _, _ => False end) /\
  fo_program r = asked_program a /\ fo_map r = asked_map a.
Definition page_glyphs_are (a : bytes * (Z * font_asked)) (r : bytes * font_seen) : Prop := fst r = fst a /\ glyphs_are (snd (snd a)) (snd r).
