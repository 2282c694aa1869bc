(** Specification: marked content (ISO 32000-2, 14.6) with its property lists, in place or in the resources, and artifacts (14.8.2.2). *)

From Coq Require Import ZArith List Bool.
From Verif Require ModelCmap ModelContent SpecContent SpecForm.
From Verif Require Import Bytes ModelFloat ModelBuf ModelObject ModelChunk ModelColor ModelSmall ModelPdf ModelTw ModelEnums ModelRoles ModelTwArgs
  ModelTwFiles ModelTwGraphics ModelTwAnnot ModelTwForms ModelTwAttr ModelTwXObj ModelTwFonts ModelTwDoc ModelFontDesc ModelDoc
  SpecLex SpecObj SpecText SpecMeans SpecRenum SpecChunk SpecFile SpecPdf SpecTyped SpecColor SpecSmall SpecTw SpecEnums SpecRoles SpecTwArgs
  SpecTwFiles SpecTwGraphics SpecTwAnnot SpecTwForms SpecTwAttr SpecTwXObj SpecTwFonts SpecTwDoc SpecFontDesc SpecDoc SpecPages SpecExtract SpecNav SpecViews SpecTagged SpecPaint SpecFunctions SpecActions SpecPresent SpecColors SpecImages SpecAppear SpecAttrs SpecFields SpecFaces.
Import ListNotations.
Local Open Scope Z_scope.

(** A property list: the identifier of the content, its text, and, of an artifact, its type, subtype, bounding box and the edges it is attached to. *)
Record property_list (N : Type) := mkPropertyList { pl_id : option Z; pl_text : option (list Z); pl_kind : option ArtifactType; pl_subtype : option ArtifactSubtype;
    pl_box : option (list N); pl_attached : option (list ArtifactAttachment) }.
Arguments mkPropertyList {N}. Arguments pl_id {N}. Arguments pl_text {N}. Arguments pl_kind {N}. Arguments pl_subtype {N}. Arguments pl_box {N}.
    Arguments pl_attached {N}.
(** Content: an operation, a marked point, or a marked sequence with what is in it. *)
Inductive content (Op N : Type) :=
| Plain (op : Op)
| Point (tag : bytes) (properties : option (property_list N))
| Sequence (tag : bytes) (properties : option (property_list N)) (inside : list (content Op N)).
Arguments Plain {Op N}. Arguments Point {Op N}. Arguments Sequence {Op N}.

(** ** The reader *)
Section Reader.
  Variable resolved : Z -> option indirect.
  Definition read_property_list (v : val) : option (property_list val) :=
    bind (object_dict resolved v) (fun d =>
    bind (optional (lit "MCID") d read_int) (fun x0 => bind (optional (lit "ActualText") d read_textstring) (fun x1 =>
    bind (optional (lit "Type") d (read_named ArtifactType_table)) (fun x2 =>
    bind (optional (lit "Subtype") d (read_open ArtifactSubtype_table ArtifactSubtype_Custom)) (fun x3 => bind (optional (lit "BBox") d read_numbers) (fun x4 =>
    bind (optional (lit "Attached") d (read_list (read_named ArtifactAttachment_table))) (fun x5 =>
    Some (mkPropertyList x0 x1 x2 x3 x4 x5)))))))).
  (** The property list of an operation: a dictionary, or the name of one in the resources. *)
  Definition read_properties (res : list (bytes * val)) (v : val) : option (property_list val) :=
    match v with
    | VName n => required (lit "Properties") res (fun l => bind (object_dict resolved l) (fun l => required n l read_property_list))
    | _ => read_property_list v
    end.
  (** [open]: the sequences that have begun, the innermost first, each with what came before it; [done]: what came before, the last first. *)
  Fixpoint read_content (res : list (bytes * val)) (open : list (bytes * option (property_list val) * list (content operation val)))
      (done : list (content operation val)) (ops : list operation) : option (list (content operation val)) :=
    match ops with
    | [] => match open with [] => Some (rev done) | _ => None end
    | op :: ops =>
        let is k := bytes_eqb (snd op) k in
        if is (lit "MP") then match fst op with [VName t] => read_content res open (Point t None :: done) ops | _ => None end
        else if is (lit "DP") then
          match fst op with [VName t; p] => bind (read_properties res p) (fun p => read_content res open (Point t (Some p) :: done) ops) | _ => None end
        else if is (lit "BMC") then match fst op with [VName t] => read_content res ((t, None, done) :: open) [] ops | _ => None end
        else if is (lit "BDC") then
          match fst op with [VName t; p] => bind (read_properties res p) (fun p => read_content res ((t, Some p, done) :: open) [] ops) | _ => None end
        else if is (lit "EMC") then
          match fst op, open with [], (t, p, before) :: open => read_content res open (Sequence t p (rev done) :: before) ops | _, _ => None end
        else read_content res open (Plain op :: done) ops
    end.
  (** The procedure sets in the resources, and the content. *)
  Definition read_page_content (v : page_view) : option (option (list ProcSet) * list (content operation val)) :=
    bind (object_dict resolved (snd (fst v))) (fun res =>
    bind (optional (lit "ProcSet") res (read_list (read_named ProcSet_table))) (fun sets =>
    option_map (pair sets) (read_content res [] [] (snd v)))).
End Reader.
Definition read_contents decode (depth : nat) (file : bytes) : option (list (option (list ProcSet) * list (content operation val))) :=
  bind (document_views decode depth file) (fun views => SpecNav.all_of (map (read_page_content (resolve decode file)) views)).

(** ** The program *)

(** What is called on a property list for a key: its own methods, or those of the artifact that it becomes. *)
Definition property_called {A} (k : bytes) (own : PropertyList_call -> list (A + obj)) (artifact : Artifact_call -> list (A + obj)) (calls : PropertyList_calls)
    (a : option A) : Prop :=
  called k (fun c => match c with PropertyList_artifact acs => given_for k artifact acs | _ => own c end) calls a.
Definition property_list_written (calls : PropertyList_calls) (x : (property_list f32)) : Prop :=
    property_called (lit "MCID") <| PropertyList_identify x => x |> (fun _ => []) calls (pl_id x) /\
    property_called (lit "ActualText") <| PropertyList_actual_text x => x |> (fun _ => []) calls (option_map TextPlain (pl_text x)) /\
    property_called (lit "Type") (fun _ => []) <| Artifact_kind x => x |> calls (pl_kind x) /\
    part_given (property_called (lit "Subtype") (fun _ => []) <| Artifact_subtype x => x |> calls) (fun x y => x = y /\ subtype_apart x) (pl_subtype x) /\
    part_given (property_called (lit "BBox") (fun _ => []) <| Artifact_bounding_box x => x |> calls) rect_list (pl_box x) /\
    property_called (lit "Attached") (fun _ => []) <| Artifact_attached x => x |> calls (pl_attached x).
(** The first of the entries with this name. *)
Fixpoint entry_named {A} (n : bytes) (l : list (bytes * A)) : option A := match l with [] => None | (k, a) :: l => if bytes_eqb n k then Some a else entry_named n l end.
Definition properties_written (res : Resources_calls) (m : ModelContent.mark) (x : property_list f32) : Prop :=
  exists calls, property_list_written calls x /\
    match m with
    | ModelContent.MarkDict entries => ODict entries = PropertyList_obj calls /\ PropertyList_ok calls = true
    | ModelContent.MarkNamed n => exists lists, called (lit "Properties") <| Resources_properties l => l |> res (Some lists) /\ entry_named n lists = Some calls
    end.
(** A call that does not mark content. *)
Definition plain_call (c : ModelContent.ccall) : bool :=
  negb (existsb (bytes_eqb (snd (SpecContent.iso_operation c))) [lit "MP"; lit "DP"; lit "BMC"; lit "BDC"; lit "EMC"]).
(** The calls write this content. *)
Inductive content_marked (res : Resources_calls) : list ModelContent.ccall -> list (content ModelContent.ccall f32) -> Prop :=
| MarkedNone : content_marked res [] []
| MarkedPlain c cs l : plain_call c = true -> content_marked res cs l -> content_marked res (c :: cs) (Plain c :: l)
| MarkedPoint tag cs l : content_marked res cs l -> content_marked res (ModelContent.CMarkedContentPoint tag :: cs) (Point tag None :: l)
| MarkedPointWith tag m p cs l : properties_written res m p -> content_marked res cs l ->
    content_marked res (ModelContent.CMarkedContentPointWithProperties tag m :: cs) (Point tag (Some p) :: l)
| MarkedSequence tag inner inside cs l : content_marked res inner inside -> content_marked res cs l ->
    content_marked res (ModelContent.CBeginMarkedContent tag :: inner ++ ModelContent.CEndMarkedContent :: cs) (Sequence tag None inside :: l)
| MarkedSequenceWith tag m p inner inside cs l : properties_written res m p -> content_marked res inner inside -> content_marked res cs l ->
    content_marked res (ModelContent.CBeginMarkedContentWithProperties tag m :: inner ++ ModelContent.CEndMarkedContent :: cs) (Sequence tag (Some p) inside :: l).
(** [None] stands for all of them. *)
Definition sets_asked (given : option (list ProcSet)) (l : list ProcSet) : Prop :=
  l = match given with Some l => l | None => [ProcSet_Pdf; ProcSet_Text; ProcSet_ImageGrayscale; ProcSet_ImageColor; ProcSet_ImageIndexed] end.
Definition sets_called (c : Resources_call) : list (option (list ProcSet) + obj) :=
  match c with Resources_proc_sets l => [inl (Some l)] | Resources_proc_sets_all => [inl None] | _ => [] end.
Definition page_content_written (p : page_asked) (x : option (list ProcSet) * list (content ModelContent.ccall f32)) : Prop :=
  part_given (called (lit "ProcSet") sets_called (pa_resources p)) sets_asked (fst x) /\ content_marked (pa_resources p) (pa_calls p) (snd x).

(** ** What is read is what was asked for *)
Definition property_list_is (x : (property_list f32)) (r : (property_list val)) : Prop :=
  pl_id r = pl_id x /\ pl_text r = pl_text x /\ pl_kind r = pl_kind x /\ pl_subtype r = pl_subtype x /\ optionally numbers_are (pl_box x) (pl_box r) /\
    pl_attached r = pl_attached x.
Inductive content_is : content ModelContent.ccall f32 -> content operation val -> Prop :=
| PlainIs c op : SpecContent.ccall_means c op -> content_is (Plain c) (Plain op)
| PointIs tag p p' : optionally property_list_is p p' -> content_is (Point tag p) (Point tag p')
| SequenceIs tag p p' inside inside' : optionally property_list_is p p' -> Forall2 content_is inside inside' -> content_is (Sequence tag p inside) (Sequence tag p' inside').
