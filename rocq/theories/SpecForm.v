(** Specification: how a reader gets from the trailer to the fields of an interactive form (ISO 32000-1, 12.7.2, 12.7.3), and what a program
    asks for. *)

From Coq Require Import ZArith List Bool.
From Verif Require ModelCmap ModelContent SpecContent.
From Verif Require Import Bytes ModelFloat ModelBuf ModelObject ModelChunk ModelColor ModelSmall ModelPdf ModelTw ModelEnums ModelRoles ModelTwArgs
  ModelTwFiles ModelTwGraphics ModelTwAnnot ModelTwForms ModelTwAttr ModelTwXObj ModelTwFonts ModelTwDoc ModelFontDesc ModelDoc
  SpecLex SpecObj SpecText SpecMeans SpecRenum SpecChunk SpecFile SpecPdf SpecTyped SpecColor SpecSmall SpecTw SpecEnums SpecRoles SpecTwArgs
  SpecTwFiles SpecTwGraphics SpecTwAnnot SpecTwForms SpecTwAttr SpecTwXObj SpecTwFonts SpecTwDoc SpecFontDesc SpecDoc SpecPages SpecExtract SpecNav SpecViews.
Import ListNotations.
Local Open Scope Z_scope.

(** ** The reader *)

Inductive field_value := ValueText (t : list Z) | ValueName (n : bytes) | ValueTexts (l : list (list Z)).
(** The attributes that a field hands down to the fields below it. The flags are the positions of the bits that are set, from 1. *)
Record field_attributes := mkAttributes {
  fa_type : option FieldType; fa_flags : list Z; fa_value : option field_value; fa_appearance : option bytes; fa_quadding : option Quadding }.
(** A field with its name (the parts from the root on), attributes and widgets: the object number of each, and the number of the page it is on. *)
Record field_read := mkFieldRead { fr_name : list (list Z); fr_attributes : field_attributes; fr_widgets : list (Z * option nat) }.

(** An entry whose value is null is no entry (7.3.7). *)
Definition present {A} (k : bytes) (d : list (bytes * val)) (f : val -> option A) : option (option A) :=
  match lookup k d with None | Some VNull => Some None | Some v => option_map Some (f v) end.
Definition or_else {A} (own inherited : option A) : option A := match own with Some a => Some a | None => inherited end.
Definition read_flags (v : val) : option (list Z) :=
  match v with VInt z => Some (List.filter (fun p => Z.testbit z (p - 1)) (map Z.of_nat (seq 1 32))) | _ => None end.
Definition read_value (v : val) : option field_value :=
  match v with
  | VStr s => option_map ValueText (text_decode s)
  | VName n => Some (ValueName n)
  | VArr l => option_map ValueTexts (all_of (map read_textstring l))
  | _ => None
  end.
Definition read_field_type (v : val) : option FieldType := bind (read_name v) (fun n => by_name n FieldType_table).
Definition read_quadding (v : val) : option Quadding := bind (read_int v) (fun n => by_number n Quadding_table).
Definition read_attributes (inherited : field_attributes) (d : list (bytes * val)) : option field_attributes :=
  bind (present (lit "FT") d read_field_type) (fun type =>
  bind (present (lit "Ff") d read_flags) (fun flags =>
  bind (present (lit "V") d read_value) (fun value =>
  bind (present (lit "DA") d read_string) (fun appearance =>
  bind (present (lit "Q") d read_quadding) (fun quadding =>
  Some (mkAttributes (or_else type (fa_type inherited)) (match flags with Some l => l | None => fa_flags inherited end)
    (or_else value (fa_value inherited)) (or_else appearance (fa_appearance inherited)) (or_else quadding (fa_quadding inherited)))))))).

(** The first page that lists the annotation. *)
Fixpoint page_of (annots : list (list Z)) (id : Z) : option nat :=
  match annots with [] => None | l :: r => if existsb (Z.eqb id) l then Some O else option_map S (page_of r id) end.

Section Reader.
  Variable resolved : Z -> option indirect.
  Variable annots : list (list Z).
  Definition has_name (d : list (bytes * val)) : bool := match lookup (lit "T") d with Some _ => true | None => false end.
  Definition is_widget (d : list (bytes * val)) : bool :=
    match lookup (lit "Subtype") d with Some (VName n) => bytes_eqb n (lit "Widget") | _ => false end.
  (** The kids of a field are fields if they have names and otherwise its widgets; without kids, the field itself can be one. *)
  Fixpoint read_field (depth : nat) (names : list (list Z)) (inherited : field_attributes) (v : val) : option (list field_read) :=
    match depth with
    | O => None
    | S n =>
        bind (read_id v) (fun id =>
        bind (object_dict resolved v) (fun d =>
        bind (optional (lit "T") d read_textstring) (fun name =>
        let names := names ++ match name with Some t => [t] | None => [] end in
        bind (read_attributes inherited d) (fun attributes =>
        let field widgets := Some [mkFieldRead names attributes (map (fun w => (w, page_of annots w)) widgets)] in
        match lookup (lit "Kids") d with
        | None => field (if is_widget d then [id] else [])
        | Some (VArr kids) =>
            bind (all_of (map (object_dict resolved) kids)) (fun ds =>
            if existsb has_name ds then concat_all (map (read_field n names attributes) kids)
            else bind (all_of (map read_id kids)) field)
        | Some _ => None
        end))))
    end.
End Reader.

Definition read_page_annots (page : list (bytes * val)) : option (list Z) :=
  match lookup (lit "Annots") page with None => Some [] | Some (VArr l) => all_of (map read_id l) | Some _ => None end.
(** The fields of the form, from the trailer on. *)
Definition read_form decode (depth : nat) (file : bytes) : option (list field_read) :=
  bind (document_pages decode depth file) (fun pages =>
  bind (all_of (map (fun p => read_page_annots (snd p)) pages)) (fun annots =>
  bind (document_catalog decode file) (fun c =>
  required (lit "AcroForm") c (fun f => bind (object_dict (resolve decode file) f) (fun form =>
  bind (present (lit "DA") form read_string) (fun appearance =>
  bind (present (lit "Q") form read_quadding) (fun quadding =>
  required (lit "Fields") form (fun fs =>
  match fs with
  | VArr l => concat_all (map (read_field (resolve decode file) annots depth [] (mkAttributes None [] None appearance quadding)) l)
  | _ => None
  end)))))))).

(** ** The program *)

(** What is written for a field; the value of a choice field can be given as null. *)
Inductive value_asked := AskText (t : list Z) | AskCheck (s : CheckBoxState) | AskName (n : bytes) | AskTexts (l : list (list Z)) | AskNull.
Record attributes_asked := mkAsked {
  aa_type : option FieldType; aa_flags : option (list FieldFlags); aa_value : option value_asked; aa_appearance : option bytes; aa_quadding : option Quadding }.
Inductive widgets_asked := NoWidget | Merged | Separate (ids : list Z).
Inductive field :=
| FieldNode (id : Z) (name : list Z) (a : attributes_asked) (kids : list field)
| FieldLeaf (id : Z) (name : list Z) (a : attributes_asked) (w : widgets_asked).
Definition field_id (f : field) : Z := match f with FieldNode id _ _ _ | FieldLeaf id _ _ _ => id end.

(** What is called on a field for a key: its own methods, or those of the annotation that it is turned into. *)
Definition field_called {A} (k : bytes) (own : Field_call -> list (A + obj)) (annot : Annotation_call -> list (A + obj)) (calls : Field_calls) (a : option A) : Prop :=
  called k (fun c => match c with Field_into_annotation acs => given_for k annot acs | _ => own c end) calls a.
(** The call that gives a value. *)
Definition value_call (c : Field_call) : list (Field_call + obj) :=
  match c with Field_text_value _ | Field_checkbox_value _ | Field_radio_value _ | Field_choice_value _ | Field_choice_values _ => [inl c] | _ => [] end.
Definition call_asks (c : Field_call) : option value_asked :=
  match c with
  | Field_text_value (TextPlain t) => Some (AskText t)
  | Field_checkbox_value s => Some (AskCheck s)
  | Field_radio_value n => Some (AskName n)
  | Field_choice_value (Some t) => Some (AskText t)
  | Field_choice_value None => Some AskNull
  | Field_choice_values l => Some (AskTexts l)
  | _ => None
  end.
Definition attributes_written (calls : Field_calls) (a : attributes_asked) : Prop :=
  field_called (lit "FT") <| Field_field_type t => t |> (fun _ => []) calls (aa_type a) /\
  field_called (lit "Ff") <| Field_field_flags l => l |> (fun _ => []) calls (aa_flags a) /\
  (exists c, field_called (lit "V") value_call (fun _ => []) calls c /\ option_map call_asks c = option_map Some (aa_value a)) /\
  field_called (lit "DA") <| Field_vartext_default_appearance s => s |> (fun _ => []) calls (aa_appearance a) /\
  field_called (lit "Q") <| Field_vartext_quadding q => q |> (fun _ => []) calls (aa_quadding a).
Definition field_name (calls : Field_calls) (t : option textlike) : Prop :=
  field_called (lit "T") <| Field_partial_name t => TextPlain t |> <| Annotation_author t => t |> calls t.
Definition field_kids (calls : Field_calls) (ids : option (list Z)) : Prop :=
  field_called (lit "Kids") <| Field_children l => l |> (fun _ => []) calls ids.
(** Turning a field into an annotation makes it a widget. *)
Definition field_annotation (calls : Field_calls) (t : option AnnotationType) : Prop :=
  called (lit "Subtype") (fun c => match c with
    | Field_into_annotation acs => inl AnnotationType_Widget :: given_for (lit "Subtype") <| Annotation_subtype t => t |> acs
    | _ => [] end) calls t.
(** A widget that is not a field: an annotation, or a field made one, without a name. *)
Definition widget_written (ops : list doc_op) (id : Z) : Prop :=
  (exists calls, In (DocTyped id (Ck_annotation calls)) ops /\ called (lit "T") <| Annotation_author t => t |> calls None) \/
  (exists calls, In (DocTyped id (Ck_form_field calls)) ops /\ field_name calls None).
Definition named_field (ops : list doc_op) (id : Z) (name : list Z) (a : attributes_asked) (rest : Field_calls -> Prop) : Prop :=
  exists calls, In (DocTyped id (Ck_form_field calls)) ops /\ field_name calls (Some (TextPlain name)) /\ attributes_written calls a /\ rest calls.
Fixpoint field_written (ops : list doc_op) (f : field) : Prop :=
  match f with
  | FieldNode id name a kids =>
      kids <> [] /\
      named_field ops id name a (fun calls => field_kids calls (Some (map field_id kids))) /\
      (fix all l := match l with [] => True | f :: l => field_written ops f /\ all l end) kids
  | FieldLeaf id name a w =>
      named_field ops id name a (fun calls =>
        match w with
        | NoWidget => field_kids calls None /\ field_annotation calls None
        | Merged => field_kids calls None /\ field_annotation calls (Some AnnotationType_Widget)
        | Separate ids => field_kids calls (Some ids) /\ Forall (widget_written ops) ids
        end)
  end.
Definition page_lists (ops : list doc_op) (page : Z) (l : list Z) : Prop :=
  exists calls, In (DocTyped page (Ck_page calls)) ops /\
    let given := called (lit "Annots") <| Page_annotations ids => ids |> calls in (l = [] /\ given None) \/ given (Some l).
Definition form_written (ops : list doc_op) (catalog : Catalog_calls) (appearance : option bytes) (quadding : option Quadding) (fields : list field) : Prop :=
  exists calls, called (lit "AcroForm") <| Catalog_form c => c |> catalog (Some calls) /\
    (called (lit "DA") <| Form_default_appearance s => s |> calls appearance /\
     called (lit "Q") <| Form_quadding q => q |> calls quadding /\
     called (lit "Fields") <| Form_fields ids => ids |> calls (Some (map field_id fields))) /\
    Forall (field_written ops) fields.

(** What the reader is to find. *)
Definition asked_value (v : value_asked) : option field_value :=
  match v with
  | AskText t => Some (ValueText t)
  | AskCheck CheckBoxState_Yes => Some (ValueName (lit "Yes"))
  | AskCheck CheckBoxState_Off => Some (ValueName (lit "Off"))
  | AskName n => Some (ValueName n)
  | AskTexts l => Some (ValueTexts l)
  | AskNull => None
  end.
Definition asked_flags (l : list FieldFlags) : list Z :=
  List.filter (fun p => existsb (fun f => FieldFlags_pos f =? p) l) (map Z.of_nat (seq 1 32)).
Definition asked_attributes (inherited : field_attributes) (a : attributes_asked) : field_attributes :=
  mkAttributes (or_else (aa_type a) (fa_type inherited)) (match aa_flags a with Some l => asked_flags l | None => fa_flags inherited end)
    (or_else (bind (aa_value a) asked_value) (fa_value inherited)) (or_else (aa_appearance a) (fa_appearance inherited))
    (or_else (aa_quadding a) (fa_quadding inherited)).
Fixpoint asked_fields (annots : list (list Z)) (names : list (list Z)) (inherited : field_attributes) (f : field) : list field_read :=
  match f with
  | FieldNode _ name a kids => flat_map (asked_fields annots (names ++ [name]) (asked_attributes inherited a)) kids
  | FieldLeaf id name a w =>
      [mkFieldRead (names ++ [name]) (asked_attributes inherited a)
        (map (fun w => (w, page_of annots w)) (match w with NoWidget => [] | Merged => [id] | Separate ids => ids end))]
  end.
Definition asked_form (annots : list (list Z)) (appearance : option bytes) (quadding : option Quadding) (fields : list field) : list field_read :=
  flat_map (asked_fields annots [] (mkAttributes None [] None appearance quadding)) fields.
