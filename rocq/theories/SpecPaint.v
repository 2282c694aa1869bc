(** Specification: what the pages of a document paint, and with which graphics state (ISO 32000-1, 8.2, 8.4, 8.5, 8.8, 8.10, 9.4).

    Everything that is painted is listed in order: paths, shown text, shadings and images, each with all that is in effect for it: the
    operations on the graphics state that have not been undone by restoring it (line styles, colors, transformations, text state,
    parameter dictionaries), the paths it is clipped to, and the form XObjects it is in.  Every operation is listed with the resources
    its names belong to. *)

From Coq Require Import ZArith List Bool.
From Verif Require ModelCmap ModelContent SpecContent.
From Verif Require Import Bytes ModelFloat ModelBuf ModelObject ModelChunk ModelColor ModelSmall ModelPdf ModelTw ModelEnums ModelRoles ModelTwArgs
  ModelTwFiles ModelTwGraphics ModelTwAnnot ModelTwForms ModelTwAttr ModelTwXObj ModelTwFonts ModelTwDoc ModelFontDesc ModelDoc
  SpecLex SpecObj SpecText SpecMeans SpecRenum SpecChunk SpecFile SpecPdf SpecTyped SpecColor SpecSmall SpecTw SpecEnums SpecRoles SpecTwArgs
  SpecTwFiles SpecTwGraphics SpecTwAnnot SpecTwForms SpecTwAttr SpecTwXObj SpecTwFonts SpecTwDoc SpecFontDesc SpecDoc SpecPages SpecExtract SpecNav SpecViews.
Import ListNotations.
Local Open Scope Z_scope.

(** ** How page descriptions are interpreted *)

(** What an operation does. *)
Inductive effect :=
| ESave | ERestore
| ESet                 (* changes the graphics state *)
| EPath                (* continues the current path *)
| EClip                (* asks for clipping to the current path, once it is painted *)
| EPaint | EEndPath    (* paints the current path, or only ends it *)
| EBeginText           (* begins or ends a text object *)
| EMove                (* moves the text position *)
| EMoveSet             (* moves the text position and changes the graphics state *)
| EShow | EShowSet     (* shows text, and changes the graphics state *)
| EShade
| EDraw (name : bytes) (* draws an XObject *)
| ENothing.            (* marked content, compatibility sections, glyph descriptions *)

Section Machine.
  (** Operations (with their resources), forms and images. *)
  Context {X F I : Type}.
  Inductive in_effect :=
  | Setting (x : X)
  | ClippedTo (path : list X)
  | InForm (f : F).
  (** What is painted, each with what is in effect, the latest first. *)
  Inductive painted :=
  | PaintedPath (state : list in_effect) (path : list X) (by_ : X)
  | PaintedText (state : list in_effect) (before : list X) (by_ : X)    (* [before]: what happened in the text object *)
  | PaintedShading (state : list in_effect) (by_ : X)
  | PaintedImage (state : list in_effect) (i : I).
  Record graphics := mkGraphics {
    g_state : list in_effect; g_saved : list (list in_effect);
    g_path : list X; g_clip : bool; g_text : list X }.
  Definition graphics_start (state : list in_effect) : graphics := mkGraphics state [] [] false [].
  Variable draw : bytes -> list in_effect -> option (list painted).
  Definition graphics_step (e : effect) (x : X) (g : graphics) : option (list painted * graphics) :=
    let '(mkGraphics state saved path clip text) := g in
    let clipped := if clip then ClippedTo path :: state else state in
    match e with
    | ESave => Some ([], mkGraphics state (state :: saved) path clip text)
    | ERestore => match saved with s :: r => Some ([], mkGraphics s r path clip text) | [] => None end
    | ESet => Some ([], mkGraphics (Setting x :: state) saved path clip text)
    | EPath => Some ([], mkGraphics state saved (x :: path) clip text)
    | EClip => Some ([], mkGraphics state saved (x :: path) true text)
    | EPaint => Some ([PaintedPath state path x], mkGraphics clipped saved [] false text)
    | EEndPath => Some ([], mkGraphics clipped saved [] false text)
    | EBeginText => Some ([], mkGraphics state saved path clip [])
    | EMove => Some ([], mkGraphics state saved path clip (x :: text))
    | EMoveSet => Some ([], mkGraphics (Setting x :: state) saved path clip (x :: text))
    | EShow => Some ([PaintedText state text x], mkGraphics state saved path clip (x :: text))
    | EShowSet => Some ([PaintedText state text x], mkGraphics (Setting x :: state) saved path clip (x :: text))
    | EShade => Some ([PaintedShading state x], g)
    | EDraw name => option_map (fun l => (l, g)) (draw name state)
    | ENothing => Some ([], g)
    end.
  Variable effect_of : X -> option effect.
  Fixpoint graphics_run (l : list X) (g : graphics) : option (list painted) :=
    match l with
    | [] => Some []
    | x :: l =>
        bind (effect_of x) (fun e =>
        bind (graphics_step e x g) (fun y => option_map (app (fst y)) (graphics_run l (snd y))))
    end.
End Machine.
Arguments in_effect : clear implicits.
Arguments painted : clear implicits.

(** ** The reader *)

Definition operator_effects : list (list bytes * effect) := [
  ([lit "q"], ESave); ([lit "Q"], ERestore);
  (* Tables 57, 74, 105 *)
  ([lit "cm"; lit "w"; lit "J"; lit "j"; lit "M"; lit "d"; lit "ri"; lit "i"; lit "gs";
    lit "CS"; lit "cs"; lit "SC"; lit "SCN"; lit "sc"; lit "scn"; lit "G"; lit "g"; lit "RG"; lit "rg"; lit "K"; lit "k";
    lit "Tc"; lit "Tw"; lit "Tz"; lit "TL"; lit "Tf"; lit "Tr"; lit "Ts"], ESet);
  (* Tables 59, 60, 61 *)
  ([lit "m"; lit "l"; lit "c"; lit "v"; lit "y"; lit "h"; lit "re"], EPath);
  ([lit "W"; lit "W*"], EClip);
  ([lit "S"; lit "s"; lit "f"; lit "F"; lit "f*"; lit "B"; lit "B*"; lit "b"; lit "b*"], EPaint);
  ([lit "n"], EEndPath);
  (* Tables 107, 108, 109 *)
  ([lit "BT"; lit "ET"], EBeginText);
  ([lit "Td"; lit "Tm"; lit "T*"], EMove);
  ([lit "TD"], EMoveSet);
  ([lit "Tj"; lit "TJ"; lit "'"], EShow);
  ([[x22]], EShowSet);
  ([lit "sh"], EShade)].
Fixpoint effect_in (k : bytes) (l : list (list bytes * effect)) : effect :=
  match l with [] => ENothing | (ks, e) :: r => if existsb (bytes_eqb k) ks then e else effect_in k r end.
Definition operation_effect (op : operation) : option effect :=
  if bytes_eqb (snd op) (lit "Do") then match fst op with [VName n] => Some (EDraw n) | _ => None end
  else Some (effect_in (snd op) operator_effects).

(** Operations with the resource dictionary that their names refer to; forms and images as their stream dictionaries, images with their data. *)
Definition read_op : Type := (val * operation)%type.
Definition read_form : Type := list (bytes * val).
Definition read_image : Type := (list (bytes * val) * bytes)%type.
Section Reader.
  Variable decode : option val -> bytes -> option bytes.
  Variable resolved : Z -> option indirect.
  Definition resource_xobject (res : val) (name : bytes) : option Z :=
    match res with
    | VDict d => required (lit "XObject") d (fun x => match x with VDict xs => required name xs read_id | _ => None end)
    | _ => None
    end.
  (** Draws the XObject with this name in a resource dictionary.  Forms must have their own resources. *)
  Fixpoint read_drawing (depth : nat) (res : val) (name : bytes) (state : list (in_effect read_op read_form)) :
      option (list (painted read_op read_form read_image)) :=
    match depth with
    | O => None
    | S n =>
        bind (resource_xobject res name) (fun id =>
        match resolved id with
        | Some (IStream _ _ d _) =>
            required (lit "Subtype") d (fun t => bind (read_name t) (fun t =>
            bind (stream_content decode resolved id) (fun content =>
            if bytes_eqb t (lit "Image") then Some [PaintedImage state (d, content)]
            else if bytes_eqb t (lit "Form") then
              required (lit "Resources") d (fun res =>
              bind (SpecContent.parse_content content) (fun ops =>
              graphics_run (read_drawing n res) (fun x => operation_effect (snd x)) (map (pair res) ops) (graphics_start (InForm d :: state))))
            else None)))
        | _ => None
        end)
    end.
End Reader.
(** What every page paints. *)
Definition read_painting decode (depth : nat) (file : bytes) : option (list (list (painted read_op read_form read_image))) :=
  bind (document_views decode depth file) (fun views =>
  all_of (map (fun v => let res := snd (fst v) in
    graphics_run (read_drawing decode (resolve decode file) depth res) (fun x => operation_effect (snd x)) (map (pair res) (snd v)) (graphics_start [])) views)).

(** ** The program *)

Definition call_effect (c : ModelContent.ccall) : option effect :=
  match c with
  | ModelContent.CSaveState => Some ESave
  | ModelContent.CRestoreState => Some ERestore
  | ModelContent.CTransform _ _ _ _ _ _ | ModelContent.CSetLineWidth _ | ModelContent.CSetLineCap _ | ModelContent.CSetLineJoin _
  | ModelContent.CSetMiterLimit _ | ModelContent.CSetDashPattern _ _ | ModelContent.CSetRenderingIntent _ | ModelContent.CSetFlatness _
  | ModelContent.CSetParameters _
  | ModelContent.CSetStrokeColorSpace _ | ModelContent.CSetFillColorSpace _ | ModelContent.CSetStrokeColor _ | ModelContent.CSetStrokePattern _ _
  | ModelContent.CSetFillColor _ | ModelContent.CSetFillPattern _ _ | ModelContent.CSetStrokeGray _ | ModelContent.CSetFillGray _
  | ModelContent.CSetStrokeRgb _ _ _ | ModelContent.CSetFillRgb _ _ _ | ModelContent.CSetStrokeCmyk _ _ _ _ | ModelContent.CSetFillCmyk _ _ _ _
  | ModelContent.CSetCharSpacing _ | ModelContent.CSetWordSpacing _ | ModelContent.CSetHorizontalScaling _ | ModelContent.CSetLeading _
  | ModelContent.CSetFont _ _ | ModelContent.CSetTextRenderingMode _ | ModelContent.CSetRise _ => Some ESet
  | ModelContent.CMoveTo _ _ | ModelContent.CLineTo _ _ | ModelContent.CCubicTo _ _ _ _ _ _ | ModelContent.CCubicToInitial _ _ _ _
  | ModelContent.CCubicToFinal _ _ _ _ | ModelContent.CClosePath | ModelContent.CRect _ _ _ _ => Some EPath
  | ModelContent.CClipNonzero | ModelContent.CClipEvenOdd => Some EClip
  | ModelContent.CStroke | ModelContent.CCloseAndStroke | ModelContent.CFillNonzero | ModelContent.CFillEvenOdd
  | ModelContent.CFillNonzeroAndStroke | ModelContent.CFillEvenOddAndStroke | ModelContent.CCloseFillNonzeroAndStroke
  | ModelContent.CCloseFillEvenOddAndStroke => Some EPaint
  | ModelContent.CEndPath => Some EEndPath
  | ModelContent.CBeginText | ModelContent.CEndText => Some EBeginText
  | ModelContent.CNextLine _ _ | ModelContent.CSetTextMatrix _ _ _ _ _ _ | ModelContent.CNextLineUsingLeading => Some EMove
  | ModelContent.CNextLineAndSetLeading _ _ => Some EMoveSet
  | ModelContent.CShow _ | ModelContent.CNextLineShow _ | ModelContent.CShowPositioned _ => Some EShow
  | ModelContent.CNextLineShowAndSet _ _ _ => Some EShowSet
  | ModelContent.CShading _ => Some EShade
  | ModelContent.CXObject name => Some (EDraw name)
  | ModelContent.CStartColorGlyph _ | ModelContent.CStartShapeGlyph _ _ _ _ _
  | ModelContent.CMarkedContentPoint _ | ModelContent.CMarkedContentPointWithProperties _ _
  | ModelContent.CBeginMarkedContent _ | ModelContent.CBeginMarkedContentWithProperties _ _ | ModelContent.CEndMarkedContent
  | ModelContent.CBeginCompat | ModelContent.CEndCompat => Some ENothing
  (* the method for arbitrary operations may only be used for operators that are not in the tables *)
  | ModelContent.COp k _ => if existsb (bytes_eqb k) (lit "Do" :: flat_map fst operator_effects) then None else Some ENothing
  end.
Definition asked_op : Type := (Resources_calls * ModelContent.ccall)%type.
Definition asked_image : Type := (ImageXObject_calls * bytes)%type.
(** An XObject: an image with its calls and its content, or a form with its calls, resources, the calls on its content, and the XObjects in its
    resources by their names, with their ids. *)
Inductive xobject :=
| DrawnImage (calls : ImageXObject_calls) (content : bytes)
| DrawnForm (calls : FormXObject_calls) (res : Resources_calls) (xs : list (bytes * (Z * xobject))) (content : list ModelContent.ccall).
Fixpoint ask_drawing (d : xobject) (state : list (in_effect asked_op FormXObject_calls)) :
    option (list (painted asked_op FormXObject_calls asked_image)) :=
  match d with
  | DrawnImage calls content => Some [PaintedImage state (calls, content)]
  | DrawnForm calls res xs content =>
      graphics_run
        (fun name state => (fix find l := match l with [] => None | (n, (_, d)) :: r => if bytes_eqb name n then ask_drawing d state else find r end) xs)
        (fun x => call_effect (snd x)) (map (pair res) content) (graphics_start (InForm calls :: state))
  end.
Fixpoint ask_named (xs : list (bytes * (Z * xobject))) (name : bytes) (state : list (in_effect asked_op FormXObject_calls)) :
    option (list (painted asked_op FormXObject_calls asked_image)) :=
  match xs with [] => None | (n, (_, d)) :: r => if bytes_eqb name n then ask_drawing d state else ask_named r name state end.
Definition asked_painting (res : Resources_calls) (xs : list (bytes * (Z * xobject))) (calls : list ModelContent.ccall) :=
  graphics_run (ask_named xs) (fun x => call_effect (snd x)) (map (pair res) calls) (graphics_start []).

(** The program writes the XObjects. *)
Definition xobjects_named (res : Resources_calls) (xs : list (bytes * (Z * xobject))) : Prop :=
  let given := called (lit "XObject") <| Resources_x_objects es => es |> res in
  (xs = [] /\ given None) \/ given (Some (as_references (map (fun x => (fst x, fst (snd x))) xs))).
Fixpoint drawing_written decode (ops : list doc_op) (id : Z) (d : xobject) : Prop :=
  match d with
  | DrawnImage calls content =>
      exists data, In (DocTyped id (Ck_image_xobject data calls)) ops /\ stream_called (lit "Subtype") no_method no_method calls None /\
        stored_with decode calls data content
  | DrawnForm calls res xs content =>
      (exists data pretty c, In (DocTyped id (Ck_form_xobject data calls)) ops /\
        stream_called (lit "Subtype") no_method no_method calls None /\
        stream_called (lit "Resources") (fun _ => []) <| FormXObject_resources r => r |> calls (Some res) /\
        forallb (SpecContent.ccall_ok pretty) content = true /\
        ModelContent.content_run content (ModelContent.content_with_settings pretty) = Some c /\
        stored_with decode calls data (inner (ModelContent.content_finish c))) /\
      xobjects_named res xs /\
      (fix all l := match l with [] => True | (_, (id, d)) :: l => drawing_written decode ops id d /\ all l end) xs
  end.
Definition page_paints decode (ops : list doc_op) (p : page_asked) (l : list (painted asked_op FormXObject_calls asked_image)) : Prop :=
  exists xs, xobjects_named (pa_resources p) xs /\ Forall (fun x => drawing_written decode ops (fst (snd x)) (snd (snd x))) xs /\
    asked_painting (pa_resources p) xs (pa_calls p) = Some l.

(** ** What is read is what was asked for *)
Definition op_is (a : asked_op) (r : read_op) : Prop := Resources_reads (fst a) (fst r) /\ SpecContent.ccall_means (snd a) (snd r).
(** A stream dictionary has the entries asked for, after the length. *)
Definition stream_dict_is (xs : list entry_spec) (d : list (bytes * val)) : Prop := exists n vs, d = (lit "Length", VInt n) :: vs /\ is_dict xs (VDict vs).
Definition form_is (a : FormXObject_calls) (r : read_form) : Prop := stream_dict_is (FormXObject_reads a) r.
Definition image_is (a : asked_image) (r : read_image) : Prop := stream_dict_is (ImageXObject_reads (fst a)) (fst r) /\ snd a = snd r.
Inductive effect_is : in_effect asked_op FormXObject_calls -> in_effect read_op read_form -> Prop :=
| setting_is a r : op_is a r -> effect_is (Setting a) (Setting r)
| clipped_is a r : Forall2 op_is a r -> effect_is (ClippedTo a) (ClippedTo r)
| in_form_is a r : form_is a r -> effect_is (InForm a) (InForm r).
Inductive painted_is : painted asked_op FormXObject_calls asked_image -> painted read_op read_form read_image -> Prop :=
| path_is s s' p p' a r : Forall2 effect_is s s' -> Forall2 op_is p p' -> op_is a r -> painted_is (PaintedPath s p a) (PaintedPath s' p' r)
| text_is s s' t t' a r : Forall2 effect_is s s' -> Forall2 op_is t t' -> op_is a r -> painted_is (PaintedText s t a) (PaintedText s' t' r)
| shading_is s s' a r : Forall2 effect_is s s' -> op_is a r -> painted_is (PaintedShading s a) (PaintedShading s' r)
| painted_image_is s s' a r : Forall2 effect_is s s' -> image_is a r -> painted_is (PaintedImage s a) (PaintedImage s' r).
