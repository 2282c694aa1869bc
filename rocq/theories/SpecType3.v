(** Specification: what the glyphs of Type 3 fonts paint (ISO 32000-1, 9.6.5): each is a content stream, which finds its XObjects in the resources of the font or,
    if the font has none, in those of the page that uses the font. *)

From Coq Require Import ZArith List Bool.
From Verif Require ModelCmap ModelContent SpecContent.
From Verif Require Import Bytes ModelFloat ModelBuf ModelObject ModelChunk ModelColor ModelSmall ModelPdf ModelTw ModelEnums ModelRoles ModelTwArgs
  ModelTwFiles ModelTwGraphics ModelTwAnnot ModelTwForms ModelTwAttr ModelTwXObj ModelTwFonts ModelTwDoc ModelFontDesc ModelDoc
  SpecLex SpecObj SpecText SpecMeans SpecRenum SpecChunk SpecFile SpecPdf SpecTyped SpecColor SpecSmall SpecTw SpecEnums SpecRoles SpecTwArgs
  SpecTwFiles SpecTwGraphics SpecTwAnnot SpecTwForms SpecTwAttr SpecTwXObj SpecTwFonts SpecTwDoc SpecFontDesc SpecDoc SpecPages SpecExtract SpecNav SpecViews SpecPaint SpecFunctions SpecColors.
Import ListNotations.
Local Open Scope Z_scope.

(** ** The reader *)
Section Reader.
  Variable decode : option val -> bytes -> option bytes.
  Variable resolved : Z -> option indirect.
  (** What a content stream paints with these resources. *)
  Definition read_glyph (n : nat) (res : val) (v : val) : option read_paintings :=
    bind (read_id v) (fun id => bind (stream_content decode resolved id) (fun content => bind (SpecContent.parse_content content) (fun ops =>
    graphics_run (read_drawing decode resolved n res) (fun x => operation_effect (snd x)) (map (pair res) ops) (graphics_start [])))).
  (** The glyphs of a font, by name; none if it is not a Type 3 font. *)
  Definition read_glyphs (page_resources : val) (n : nat) (font : val) : option (list (bytes * read_paintings)) :=
    bind (object_dict resolved font) (fun d => required (lit "Subtype") d (fun t => bind (read_name t) (fun t =>
    if bytes_eqb t (lit "Type3") then
      let res := match lookup (lit "Resources") d with Some res => res | None => page_resources end in
      required (lit "CharProcs") d (fun procs => bind (object_dict resolved procs) (fun procs =>
      all_of (map (fun e => option_map (pair (fst e)) (read_glyph n res (snd e))) procs)))
    else Some []))).
End Reader.
(** For every page, the fonts by name. *)
Definition read_page_glyphs decode (depth : nat) (file : bytes) : option (list (list (bytes * list (bytes * read_paintings)))) :=
  bind (document_views decode depth file) (fun views => all_of (map (fun v => let res := snd (fst v) in
    named_in (lit "Font") (read_glyphs decode (resolve decode file) res depth) res) views)).

(** ** The program *)
Section Written.
  Variables (decode : option val -> bytes -> option bytes) (ops : list doc_op).
  Definition type3_written (page_resources : Resources_calls) (id : Z) (l : list (bytes * asked_paintings)) : Prop :=
    exists calls procs res xs,
      In (DocTyped id (Ck_type3_font calls)) ops /\ called (lit "Subtype") no_method calls None /\
      (called (lit "Resources") <| Type3Font_resources r => r |> calls (Some res) \/
       (called (lit "Resources") <| Type3Font_resources r => r |> calls None /\ res = page_resources)) /\
      called (lit "CharProcs") <| Type3Font_char_procs l => l |> calls (Some procs) /\
      xobjects_named res xs /\ Forall (fun x => drawing_written decode ops (fst (snd x)) (snd (snd x))) xs /\
      Forall2 (fun p g => fst p = fst g /\ exists content, content_written decode ops content (snd p) /\ asked_painting res xs content = Some (snd g)) procs l.
  Definition other_font (id : Z) : Prop :=
    (exists calls, In (DocTyped id (Ck_type1_font calls)) ops /\ called (lit "Subtype") no_method calls None) \/
    (exists calls, In (DocTyped id (Ck_type0_font calls)) ops /\ called (lit "Subtype") no_method calls None).
  (** In the resources of a page. *)
  Definition font_in (page_resources : Resources_calls) (o : obj) (l : list (bytes * asked_paintings)) : Prop :=
    exists id, o = OPrim (PRef id) /\ (type3_written page_resources id l \/ (other_font id /\ l = [])).
  Definition page_glyphs_written (p : page_asked) (l : list (bytes * list (bytes * asked_paintings))) : Prop :=
    category_written (called (lit "Font") <| Resources_fonts es => es |> (pa_resources p)) (font_in (pa_resources p)) l.
End Written.
