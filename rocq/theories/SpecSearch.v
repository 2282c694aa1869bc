(** Specification: the text of the pages together with the text of the form XObjects they draw (ISO 32000-1, 8.10, 9.4, 9.10.2).

    As in SpecExtract, with the difference that [Do] is followed: a form shows its text where it is drawn.  It has its own resources, starts
    with the font that is current where it is drawn, and leaves that font as it was. *)

From Coq Require Import ZArith List Bool.
From Verif Require ModelCmap ModelContent SpecContent.
From Verif Require Import Bytes ModelFloat ModelBuf ModelObject ModelChunk ModelColor ModelSmall ModelPdf ModelTw ModelEnums ModelRoles ModelTwArgs
  ModelTwFiles ModelTwGraphics ModelTwAnnot ModelTwForms ModelTwAttr ModelTwXObj ModelTwFonts ModelTwDoc ModelFontDesc ModelDoc
  SpecLex SpecObj SpecText SpecMeans SpecRenum SpecChunk SpecFile SpecPdf SpecTyped SpecColor SpecSmall SpecTw SpecEnums SpecRoles SpecTwArgs
  SpecTwFiles SpecTwGraphics SpecTwAnnot SpecTwForms SpecTwAttr SpecTwXObj SpecTwFonts SpecTwDoc SpecFontDesc SpecDoc SpecPages SpecExtract SpecNav SpecViews.
Import ListNotations.
Local Open Scope Z_scope.

(** ** The reader *)

(** The text of operations; [draw] gives the text of an XObject by its name, drawn while a font is current. *)
Fixpoint read_all_text (draw : option font_reading -> bytes -> option (list Z)) (font : bytes -> option font_reading) (st : text_state)
    (ops : list operation) : option (list Z) :=
  match ops with
  | [] => Some []
  | op :: r =>
      bind (if bytes_eqb (snd op) (lit "Do")
            then match fst op with [VName n] => option_map (fun t => (t, st)) (draw (fst st) n) | _ => None end
            else read_step font st op)
        (fun x => option_map (app (fst x)) (read_all_text draw font (snd x) r))
  end.
Section Reader.
  Variable decode : option val -> bytes -> option bytes.
  Variable resolved : Z -> option indirect.
  Definition xobject_reference (res : val) (name : bytes) : option Z :=
    match res with
    | VDict d => required (lit "XObject") d (fun x => match x with VDict xs => required name xs read_id | _ => None end)
    | _ => None
    end.
  Fixpoint read_xobject_text (depth : nat) (res : val) (current : option font_reading) (name : bytes) : option (list Z) :=
    match depth with
    | O => None
    | S n =>
        bind (xobject_reference res name) (fun id =>
        match resolved id with
        | Some (IStream _ _ d _) =>
            required (lit "Subtype") d (fun t => bind (read_name t) (fun t =>
            if bytes_eqb t (lit "Image") then Some []
            else if bytes_eqb t (lit "Form") then
              required (lit "Resources") d (fun res =>
              bind (stream_content decode resolved id) (fun content =>
              bind (SpecContent.parse_content content) (fun ops =>
              read_all_text (read_xobject_text n res) (resource_font decode resolved res) (current, []) ops)))
            else None))
        | _ => None
        end)
    end.
End Reader.
(** For every page, its text. *)
Definition read_searchable decode (depth : nat) (file : bytes) : option (list (list Z)) :=
  bind (document_views decode depth file) (fun views => all_of (map (fun v => let res := snd (fst v) in
    read_all_text (read_xobject_text decode (resolve decode file) depth res) (resource_font decode (resolve decode file) res) (None, []) (snd v)) views)).

(** ** The program *)

(** An XObject: an image, or a form with the fonts and the XObjects in its resources, by name, and the calls on its content. *)
Inductive text_xobject :=
| TextlessImage
| TextForm (fonts : font_set) (xs : list (bytes * (Z * text_xobject))) (content : list ModelContent.ccall).
(** The text that calls show; the method for arbitrary operations must not be used to draw. *)
Fixpoint asked_all_text (draw : option mapped_font -> bytes -> option (list Z)) (fonts : font_set) (st : asked_state)
    (calls : list ModelContent.ccall) : option (list Z) :=
  match calls with
  | [] => Some []
  | c :: r =>
      bind (match c with
            | ModelContent.CXObject n => option_map (fun t => (t, st)) (draw (fst st) n)
            | ModelContent.COp k _ => if bytes_eqb k (lit "Do") then None else asked_step fonts st c
            | _ => asked_step fonts st c
            end)
        (fun x => option_map (app (fst x)) (asked_all_text draw fonts (snd x) r))
  end.
Fixpoint asked_xobject_text (x : text_xobject) (current : option mapped_font) : option (list Z) :=
  match x with
  | TextlessImage => Some []
  | TextForm fonts xs content =>
      asked_all_text
        (fun current name => (fix find l := match l with [] => None | (n, (_, x)) :: r => if bytes_eqb name n then asked_xobject_text x current else find r end) xs)
        fonts (current, []) content
  end.
Fixpoint asked_named_text (xs : list (bytes * (Z * text_xobject))) (current : option mapped_font) (name : bytes) : option (list Z) :=
  match xs with [] => None | (n, (_, x)) :: r => if bytes_eqb name n then asked_xobject_text x current else asked_named_text r current name end.

Section Written.
  Variables (decode : option val -> bytes -> option bytes) (ops : list doc_op).
  (** The resources have exactly these XObjects. *)
  Definition text_xobjects_named (res : Resources_calls) (xs : list (bytes * (Z * text_xobject))) : Prop :=
    let given := called (lit "XObject") <| Resources_x_objects es => es |> res in
    (xs = [] /\ given None) \/ given (Some (as_references (map (fun x => (fst x, fst (snd x))) xs))).
  Fixpoint text_xobject_written (id : Z) (x : text_xobject) : Prop :=
    match x with
    | TextlessImage => exists data calls, In (DocTyped id (Ck_image_xobject data calls)) ops /\ stream_called (lit "Subtype") no_method no_method calls None
    | TextForm fonts xs content =>
        (exists data calls res pretty c, In (DocTyped id (Ck_form_xobject data calls)) ops /\
          stream_called (lit "Subtype") no_method no_method calls None /\
          stream_called (lit "Resources") (fun _ => []) <| FormXObject_resources r => r |> calls (Some res) /\
          forallb (SpecContent.ccall_ok pretty) content = true /\
          ModelContent.content_run content (ModelContent.content_with_settings pretty) = Some c /\
          stored_with decode calls data (inner (ModelContent.content_finish c)) /\
          fonts_written decode ops res fonts /\ text_xobjects_named res xs) /\
        (fix all l := match l with [] => True | (_, (id, x)) :: l => text_xobject_written id x /\ all l end) xs
    end.
  Definition page_text_is (p : page_asked) (t : list Z) : Prop :=
    exists fonts xs, fonts_written decode ops (pa_resources p) fonts /\ text_xobjects_named (pa_resources p) xs /\
      Forall (fun x => text_xobject_written (fst (snd x)) (snd (snd x))) xs /\
      asked_all_text (asked_named_text xs) fonts (None, []) (pa_calls p) = Some t.
End Written.
