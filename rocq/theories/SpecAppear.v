(** Specification: how a reader gets from the trailer to the annotations of the pages and what they show (ISO 32000-1, 12.5.2, 12.5.3,
    12.5.5), and what a program asks for. *)

From Coq Require Import ZArith List Bool.
From Verif Require ModelCmap ModelContent SpecContent SpecForm.
From Verif Require Import Bytes ModelFloat ModelBuf ModelObject ModelChunk ModelColor ModelSmall ModelPdf ModelTw ModelEnums ModelRoles ModelTwArgs
  ModelTwFiles ModelTwGraphics ModelTwAnnot ModelTwForms ModelTwAttr ModelTwXObj ModelTwFonts ModelTwDoc ModelFontDesc ModelDoc
  SpecLex SpecObj SpecText SpecMeans SpecRenum SpecChunk SpecFile SpecPdf SpecTyped SpecColor SpecSmall SpecTw SpecEnums SpecRoles SpecTwArgs
  SpecTwFiles SpecTwGraphics SpecTwAnnot SpecTwForms SpecTwAttr SpecTwXObj SpecTwFonts SpecTwDoc SpecFontDesc SpecDoc SpecPages SpecExtract SpecNav SpecViews SpecPaint.
Import ListNotations.
Local Open Scope Z_scope.

(** ** The reader *)

(** The kind of the annotation, its rectangle, the positions of the flags that are set (from 1), and what its normal appearance paints, if it
    has one (for its appearance state). *)
Record annotation_read := mkAnnotationRead {
  ar_type : AnnotationType; ar_rect : val; ar_flags : list Z; ar_look : option (list (painted read_op read_form read_image)) }.
Definition flag_positions (v : val) : option (list Z) :=
  match v with VInt z => Some (List.filter (fun p => Z.testbit z (p - 1)) (map Z.of_nat (seq 1 32))) | _ => None end.

Section Reader.
  Variable decode : option val -> bytes -> option bytes.
  Variable resolved : Z -> option indirect.
  (** Draws an XObject in the initial graphics state. *)
  Definition read_alone (depth : nat) (id : Z) : option (list (painted read_op read_form read_image)) :=
    read_drawing decode resolved depth (VDict [(lit "XObject", VDict [(lit "it", VRef id 0)])]) (lit "it") [].
  (** The normal appearance: a stream, or streams by the names of the states. *)
  Definition appearance_stream (d : list (bytes * val)) : option (option Z) :=
    match lookup (lit "AP") d with
    | None => Some None
    | Some ap =>
        bind (object_dict resolved ap) (fun ap =>
        match lookup (lit "N") ap with
        | None => Some None
        | Some (VRef id 0) => Some (Some id)
        | Some (VDict states) =>
            match lookup (lit "AS") d with
            | Some (VName s) => match lookup s states with Some v => option_map Some (read_id v) | None => Some None end
            | Some _ => None
            | None => Some None
            end
        | Some _ => None
        end)
    end.
  Definition read_annot (depth : nat) (v : val) : option annotation_read :=
    bind (object_dict resolved v) (fun d =>
    required (lit "Subtype") d (fun t => bind (read_name t) (fun t =>
    bind (by_name t AnnotationType_table) (fun type =>
    required (lit "Rect") d (fun rect =>
    bind (optional (lit "F") d flag_positions) (fun flags =>
    bind (appearance_stream d) (fun look =>
    bind (match look with None => Some None | Some id => option_map Some (read_alone depth id) end) (fun look =>
    Some (mkAnnotationRead type rect (match flags with Some l => l | None => [] end) look))))))))).
  Definition read_page_annots (depth : nat) (page : list (bytes * val)) : option (list annotation_read) :=
    match lookup (lit "Annots") page with
    | None => Some []
    | Some (VArr l) => all_of (map (read_annot depth) l)
    | Some _ => None
    end.
End Reader.
(** The annotations of every page. *)
Definition read_annotations decode (depth : nat) (file : bytes) : option (list (list annotation_read)) :=
  bind (document_pages decode depth file) (fun pages =>
  all_of (map (fun p => read_page_annots decode (resolve decode file) depth (snd p)) pages)).

(** ** The program *)

(** The normal appearance: none, an XObject with its id, or XObjects by the names of states, and the state of the annotation. *)
Inductive look :=
| NoLook
| OneLook (x : Z * xobject)
| StateLooks (l : list (bytes * (Z * xobject))) (state : option bytes).
Record annotation_asked := mkAnnotation { an_id : Z; an_type : AnnotationType; an_rect : rect; an_flags : option (list AnnotationFlags); an_look : look }.
(** The calls that write an annotation: on an annotation, or on a field that is made one. *)
Definition annotation_calls : Type := (Annotation_calls + Field_calls)%type.
Definition annotation_called {A} (k : bytes) (sel : Annotation_call -> list (A + obj)) (calls : annotation_calls) (a : option A) : Prop :=
  match calls with inl calls => called k sel calls a | inr calls => SpecForm.field_called k (fun _ => []) sel calls a end.
Definition annotation_typed (calls : annotation_calls) (t : AnnotationType) : Prop :=
  match calls with
  | inl calls => called (lit "Subtype") <| Annotation_subtype t => t |> calls (Some t)
  | inr calls => SpecForm.field_annotation calls (Some t)
  end.
Definition look_written decode (ops : list doc_op) (calls : annotation_calls) (k : look) : Prop :=
  let appearance := annotation_called (lit "AP") <| Annotation_appearance c => c |> calls in
  let normal x := exists calls, appearance (Some calls) /\ called (lit "N") <| Appearance_normal x => x |> calls x in
  match k with
  | NoLook => appearance None \/ normal None
  | OneLook (id, d) => normal (Some (AppearanceEntry_stream id)) /\ drawing_written decode ops id d
  | StateLooks l state =>
      normal (Some (AppearanceEntry_streams (map (fun e => (fst e, fst (snd e))) l))) /\
      annotation_called (lit "AS") <| Annotation_appearance_state s => s |> calls state /\
      Forall (fun e => drawing_written decode ops (fst (snd e)) (snd (snd e))) l
  end.
Definition annotation_written decode (ops : list doc_op) (a : annotation_asked) : Prop :=
  exists calls, In (DocTyped (an_id a) match calls with inl calls => Ck_annotation calls | inr calls => Ck_form_field calls end) ops /\
    annotation_typed calls (an_type a) /\
    annotation_called (lit "Rect") <| Annotation_rect r => r |> calls (Some (an_rect a)) /\
    annotation_called (lit "F") <| Annotation_flags l => l |> calls (an_flags a) /\
    look_written decode ops calls (an_look a).
Definition page_annotations_written decode (ops : list doc_op) (page : Z) (l : list annotation_asked) : Prop :=
  SpecForm.page_lists ops page (map an_id l) /\ Forall (annotation_written decode ops) l.

(** The XObject that is shown. *)
Definition asked_xobject (k : look) : option xobject :=
  match k with
  | NoLook => None
  | OneLook (_, d) => Some d
  | StateLooks l (Some s) => (fix find l := match l with [] => None | (n, (_, d)) :: r => if bytes_eqb s n then Some d else find r end) l
  | StateLooks _ None => None
  end.
Definition asked_positions (l : list AnnotationFlags) : list Z :=
  List.filter (fun p => existsb (fun f => AnnotationFlags_pos f =? p) l) (map Z.of_nat (seq 1 32)).
(** What is read is what was asked for. *)
Definition annotation_is (a : annotation_asked) (r : annotation_read) : Prop :=
  ar_type r = an_type a /\ is_rect (an_rect a) (ar_rect r) /\
  ar_flags r = asked_positions (match an_flags a with Some l => l | None => [] end) /\
  match asked_xobject (an_look a), ar_look r with
  | None, None => True
  | Some d, Some l' => exists l, ask_drawing d [] = Some l /\ Forall2 painted_is l l'
  | _, _ => False
  end.
(** Every appearance that is shown makes sense by itself: it saves the graphics state before it restores it, uses no unknown XObjects. *)
Definition look_sensible (a : annotation_asked) : Prop := match asked_xobject (an_look a) with Some d => ask_drawing d [] <> None | None => True end.
