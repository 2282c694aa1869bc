(** Specification: the attributes of the elements of tagged documents (ISO 32000-2, 14.7.6, 14.8.5), the classes of attributes, and what else belongs to elements
    and to the structure tree: languages, expansions, pronunciations, identifiers, references, files, namespaces. *)

From Coq Require Import ZArith List Bool.
From Verif Require ModelCmap ModelContent SpecContent.
From Verif Require Import Bytes ModelFloat ModelBuf ModelObject ModelChunk ModelColor ModelSmall ModelPdf ModelTw ModelEnums ModelRoles ModelTwArgs
  ModelTwFiles ModelTwGraphics ModelTwAnnot ModelTwForms ModelTwAttr ModelTwXObj ModelTwFonts ModelTwDoc ModelFontDesc ModelDoc
  SpecLex SpecObj SpecText SpecMeans SpecRenum SpecChunk SpecFile SpecPdf SpecTyped SpecColor SpecSmall SpecTw SpecEnums SpecRoles SpecTwArgs
  SpecTwFiles SpecTwGraphics SpecTwAnnot SpecTwForms SpecTwAttr SpecTwXObj SpecTwFonts SpecTwDoc SpecFontDesc SpecDoc SpecPages SpecExtract SpecNav SpecViews SpecTagged SpecPaint SpecFunctions SpecActions SpecPresent SpecColors SpecImages.
Import ListNotations.
Local Open Scope Z_scope.

(** ** What is read *)

(** Sizes of columns, heights of lines. *)
Inductive tracks := OneSize (n : val) | EachSize (l : list val).
Inductive height_read := NormalHeight | AutoHeight | Height (n : val).
(** Layout (tables 377 to 383); [N] for numbers, [C] for colors, [R] for rectangles, [T] for sizes of columns, [H] for heights of lines. *)
Record layout (N C R T H : Type) := mkLayout {
  la_placement : option Placement; la_writing : option WritingMode; la_background : option C; la_border_color : option (sides C);
  la_border_style : option (sides border_style); la_border_thickness : option (sides N); la_padding : option (sides N); la_color : option C; la_before : option N;
  la_after : option N; la_start : option N; la_end : option N; la_text : option N; la_align : option TextAlign; la_width : option N; la_height : option N;
  la_box : option R; la_block : option BlockAlign; la_inline : option InlineAlign; la_table_style : option (sides border_style); la_table_padding : option (sides N);
  la_columns : option Z; la_column_widths : option T; la_column_gap : option T; la_line_height : option H; la_shift : option N; la_position : option LayoutTextPosition;
  la_decoration : option TextDecorationType; la_decoration_color : option C; la_decoration_thickness : option N; la_orientation : option GlyphOrientationVertical;
  la_ruby_align : option RubyAlign; la_ruby_position : option RubyPosition }.
Arguments mkLayout {N C R T H}.
Arguments la_placement {N C R T H}. Arguments la_writing {N C R T H}. Arguments la_background {N C R T H}. Arguments la_border_color {N C R T H}.
Arguments la_border_style {N C R T H}. Arguments la_border_thickness {N C R T H}. Arguments la_padding {N C R T H}. Arguments la_color {N C R T H}.
Arguments la_before {N C R T H}. Arguments la_after {N C R T H}. Arguments la_start {N C R T H}. Arguments la_end {N C R T H}. Arguments la_text {N C R T H}.
Arguments la_align {N C R T H}. Arguments la_width {N C R T H}. Arguments la_height {N C R T H}. Arguments la_box {N C R T H}. Arguments la_block {N C R T H}.
Arguments la_inline {N C R T H}. Arguments la_table_style {N C R T H}. Arguments la_table_padding {N C R T H}. Arguments la_columns {N C R T H}.
Arguments la_column_widths {N C R T H}. Arguments la_column_gap {N C R T H}. Arguments la_line_height {N C R T H}. Arguments la_shift {N C R T H}.
Arguments la_position {N C R T H}. Arguments la_decoration {N C R T H}. Arguments la_decoration_color {N C R T H}. Arguments la_decoration_thickness {N C R T H}.
Arguments la_orientation {N C R T H}. Arguments la_ruby_align {N C R T H}. Arguments la_ruby_position {N C R T H}.
(** Lists, form fields, tables, artifacts, user properties (tables 361, 382, 384, 385, 386). *)
Record list_of := mkListOf { ls_numbering : option ListNumbering; ls_continued : option bool; ls_from : option bytes }.
Record field_of := mkFieldOf { fd_role : option FieldRole; fd_checked : option FieldState; fd_checked2 : option FieldState; fd_description : option (list Z) }.
Record table_of := mkTableOf { tb_rows : option Z; tb_columns : option Z; tb_headers : option (list bytes); tb_scope : option TableHeaderScope;
  tb_summary : option (list Z); tb_short : option (list Z) }.
Record artifact_of (R : Type) := mkArtifactOf { af_type : option ArtifactType; af_box : option R; af_subtype : option ArtifactSubtype }.
Arguments mkArtifactOf {R}. Arguments af_type {R}. Arguments af_box {R}. Arguments af_subtype {R}.
Record property_of (V : Type) := mkPropertyOf { up_name : option (list Z); up_value : option V; up_format : option (list Z); up_hidden : option bool }.
Arguments mkPropertyOf {V}. Arguments up_name {V}. Arguments up_value {V}. Arguments up_format {V}. Arguments up_hidden {V}.
(** An attribute object: [L] for layouts, [R] for rectangles, [V] for other values.  Those of namespaces have the name of the namespace. *)
Inductive attribute (L R V : Type) :=
| OfLayout (l : L) | OfList (l : list_of) | OfField (f : field_of) | OfTable (t : table_of) | OfArtifact (a : artifact_of R) | OfNote (n : option NoteType)
| OfUser (l : list (property_of V)) | OfNamespace (uri : list Z) (l : list (bytes * V)) | OfOwner (o : AttributeOwner) (l : list (bytes * V)).
Arguments OfLayout {L R V}. Arguments OfList {L R V}. Arguments OfField {L R V}. Arguments OfTable {L R V}. Arguments OfArtifact {L R V}. Arguments OfNote {L R V}.
Arguments OfUser {L R V}. Arguments OfNamespace {L R V}. Arguments OfOwner {L R V}.
Definition read_attr : Type := attribute (layout val (list val) (list val) tracks height_read) (list val) val.
Definition asked_attr : Type := attribute (layout f32 f3 rect TrackSizes_call LineHeight) rect obj.
(** What belongs to an element (table 355); the attributes of a class with its name. *)
Record details (A : Type) := mkDetails { el_parent : option Z; el_id : option bytes; el_refs : option (list Z); el_revision : option Z; el_lang : option (list Z); el_expanded : option (list Z);
  el_alphabet : option PhoneticAlphabet; el_phoneme : option (list Z); el_files : option (list file_of); el_attributes : option (list A);
  el_classes : option (list (bytes * list A)) }.
Arguments mkDetails {A}. Arguments el_parent {A}. Arguments el_id {A}. Arguments el_refs {A}. Arguments el_revision {A}. Arguments el_lang {A}. Arguments el_expanded {A}. Arguments el_alphabet {A}.
Arguments el_phoneme {A}. Arguments el_files {A}. Arguments el_attributes {A}. Arguments el_classes {A}.
(** What the types of a namespace stand for (table 356). *)
Inductive target := ToStandard (r : StructRole) | ToPdf2 (r : StructRole2) | ToOther (uri : list Z) (name : bytes).
Record namespace_of := mkNamespaceOf { ns_uri : option (list Z); ns_schema : option file_of; ns_types : option (list (bytes * target)) }.
(** What belongs to the tree (table 354): the elements by their identifiers, namespaces, and others. *)
Record tree_parts := mkTreeParts { tp_ids : option (list (bytes * Z)); tp_next : option Z; tp_namespaces : option (list namespace_of); tp_lexicon : option (list Z);
  tp_files : option (list file_of) }.

(** ** The reader *)

Definition read_sides {B} (split : val -> option (val * val * val * val)) (f : val -> option B) (v : val) : option (sides B) :=
  bind (split v) (fun x => let '(a, b, c, d) := x in
  bind (f a) (fun a => bind (f b) (fun b => bind (f c) (fun c => bind (f d) (fun d => Some (mkSides a b c d)))))).
Definition border_styles : list (bytes * border_style) := [(lit "None", BsNone); (lit "Hidden", BsHidden); (lit "Dotted", BsDotted); (lit "Dashed", BsDashed);
  (lit "Solid", BsSolid); (lit "Double", BsDouble); (lit "Groove", BsGroove); (lit "Ridge", BsRidge); (lit "Inset", BsInset); (lit "Outset", BsOutset)].
Definition read_tracks (v : val) : option tracks :=
  match v with VArr _ => option_map EachSize (read_numbers v) | _ => option_map OneSize (read_number v) end.
Definition read_height (v : val) : option height_read :=
  match v with
  | VName n => if bytes_eqb n (lit "Normal") then Some NormalHeight else if bytes_eqb n (lit "Auto") then Some AutoHeight else None
  | _ => option_map Height (read_number v)
  end.
Definition read_orientation (v : val) : option GlyphOrientationVertical :=
  match v with
  | VName n => if bytes_eqb n (lit "Auto") then Some GlyphOrientationVertical_Auto else None
  | VInt a => Some (GlyphOrientationVertical_Angle a)
  | _ => None
  end.
(** A name of the table, or another one. *)
Definition read_open {E} (table : list (bytes * E)) (other : bytes -> E) (v : val) : option E :=
  bind (read_name v) (fun n => Some (match by_name n table with Some x => x | None => other n end)).
(** The entries with other keys. *)
Definition without (keys : list bytes) {V} (d : list (bytes * V)) : list (bytes * V) := List.filter (fun e => negb (existsb (bytes_eqb (fst e)) keys)) d.
Section Reader.
  Variable decode : option val -> bytes -> option bytes.
  Variable resolved : Z -> option indirect.
  Definition read_layout (d : list (bytes * val)) : option (layout val (list val) (list val) tracks height_read) :=
    bind (optional (lit "Placement") d (read_named Placement_table)) (fun x0 => bind (optional (lit "WritingMode") d (read_named WritingMode_table)) (fun x1 =>
    bind (optional (lit "BackgroundColor") d read_numbers) (fun x2 => bind (optional (lit "BorderColor") d (read_sides read_color_sides read_numbers)) (fun x3 =>
    bind (optional (lit "BorderStyle") d (read_sides read_scalar_sides (read_named border_styles))) (fun x4 =>
    bind (optional (lit "BorderThickness") d (read_sides read_scalar_sides read_number)) (fun x5 =>
    bind (optional (lit "Padding") d (read_sides read_scalar_sides read_number)) (fun x6 => bind (optional (lit "Color") d read_numbers) (fun x7 =>
    bind (optional (lit "SpaceBefore") d read_number) (fun x8 => bind (optional (lit "SpaceAfter") d read_number) (fun x9 =>
    bind (optional (lit "StartIndent") d read_number) (fun x10 => bind (optional (lit "EndIndent") d read_number) (fun x11 =>
    bind (optional (lit "TextIndent") d read_number) (fun x12 => bind (optional (lit "TextAlign") d (read_named TextAlign_table)) (fun x13 =>
    bind (optional (lit "Width") d read_number) (fun x14 => bind (optional (lit "Height") d read_number) (fun x15 => bind (optional (lit "BBox") d read_numbers) (fun x16 =>
    bind (optional (lit "BlockAlign") d (read_named BlockAlign_table)) (fun x17 => bind (optional (lit "InlineAlign") d (read_named InlineAlign_table)) (fun x18 =>
    bind (optional (lit "TBorderStyle") d (read_sides read_scalar_sides (read_named border_styles))) (fun x19 =>
    bind (optional (lit "TPadding") d (read_sides read_scalar_sides read_number)) (fun x20 => bind (optional (lit "ColumnCount") d read_int) (fun x21 =>
    bind (optional (lit "ColumnWidths") d read_tracks) (fun x22 => bind (optional (lit "ColumnGap") d read_tracks) (fun x23 =>
    bind (optional (lit "LineHeight") d read_height) (fun x24 => bind (optional (lit "BaselineShift") d read_number) (fun x25 =>
    bind (optional (lit "TextPosition") d (read_named LayoutTextPosition_table)) (fun x26 =>
    bind (optional (lit "TextDecorationType") d (read_named TextDecorationType_table)) (fun x27 => bind (optional (lit "TextDecorationColor") d read_numbers) (fun x28 =>
    bind (optional (lit "TextDecorationThickness") d read_number) (fun x29 => bind (optional (lit "GlyphOrientationVertical") d read_orientation) (fun x30 =>
    bind (optional (lit "RubyAlign") d (read_named RubyAlign_table)) (fun x31 => bind (optional (lit "RubyPosition") d (read_named RubyPosition_table)) (fun x32 =>
    Some (mkLayout x0 x1 x2 x3 x4 x5 x6 x7 x8 x9 x10 x11 x12 x13 x14 x15 x16 x17 x18 x19 x20 x21 x22 x23 x24 x25 x26 x27 x28 x29 x30 x31 x32)))))))))))))))))))))))))))))))))).
  Definition read_list_of (d : list (bytes * val)) : option list_of :=
    bind (optional (lit "ListNumbering") d (read_named ListNumbering_table)) (fun n => bind (optional (lit "ContinuedList") d read_boolean) (fun c =>
    bind (optional (lit "ContinuedFrom") d read_string) (fun f => Some (mkListOf n c f)))).
  Definition read_field_of (d : list (bytes * val)) : option field_of :=
    bind (optional (lit "Role") d (read_named FieldRole_table)) (fun r => bind (optional (lit "checked") d (read_named FieldState_table)) (fun c =>
    bind (optional (lit "Checked") d (read_named FieldState_table)) (fun c2 => bind (optional (lit "Desc") d read_textstring) (fun t =>
    Some (mkFieldOf r c c2 t))))).
  Definition read_table_of (d : list (bytes * val)) : option table_of :=
    bind (optional (lit "RowSpan") d read_int) (fun rows => bind (optional (lit "ColSpan") d read_int) (fun columns =>
    bind (optional (lit "Headers") d (read_list read_string)) (fun headers => bind (optional (lit "Scope") d (read_named TableHeaderScope_table)) (fun scope =>
    bind (optional (lit "Summary") d read_textstring) (fun summary => bind (optional (lit "Short") d read_textstring) (fun short =>
    Some (mkTableOf rows columns headers scope summary short))))))).
  Definition read_artifact_of (d : list (bytes * val)) : option (artifact_of (list val)) :=
    bind (optional (lit "Type") d (read_named ArtifactType_table)) (fun t => bind (optional (lit "BBox") d read_numbers) (fun b =>
    bind (optional (lit "Subtype") d (read_open ArtifactSubtype_table ArtifactSubtype_Custom)) (fun s => Some (mkArtifactOf t b s)))).
  Definition read_property (v : val) : option (property_of val) :=
    bind (object_dict resolved v) (fun d =>
    bind (optional (lit "N") d read_textstring) (fun n => bind (optional (lit "V") d Some) (fun x => bind (optional (lit "F") d read_textstring) (fun f =>
    bind (optional (lit "H") d read_boolean) (fun h => Some (mkPropertyOf n x f h)))))).
  Definition read_attribute (v : val) : option read_attr :=
    bind (object_dict resolved v) (fun d => required (lit "O") d (fun o => bind (read_name o) (fun o =>
    if bytes_eqb o (lit "Layout") then option_map OfLayout (read_layout d)
    else if bytes_eqb o (lit "List") then option_map OfList (read_list_of d)
    else if bytes_eqb o (lit "PrintField") then option_map OfField (read_field_of d)
    else if bytes_eqb o (lit "Table") then option_map OfTable (read_table_of d)
    else if bytes_eqb o (lit "Artifact") then option_map OfArtifact (read_artifact_of d)
    else if bytes_eqb o (lit "FENote") then option_map OfNote (optional (lit "NoteType") d (read_named NoteType_table))
    else if bytes_eqb o (lit "UserProperties") then required (lit "P") d (fun l => option_map OfUser (read_list read_property l))
    else if bytes_eqb o (lit "NSO") then required (lit "NS") d (fun ns => option_map (fun uri => OfNamespace uri (without [lit "O"; lit "NS"] d)) (read_namespace resolved ns))
    else option_map (fun o => OfOwner o (without [lit "O"] d)) (by_name o (AttributeOwner_table_2020 ++ AttributeOwner_table_old))))).
  (** A class: one attribute object or several. *)
  Definition read_class (classes : list (bytes * val)) (v : val) : option (bytes * list read_attr) :=
    bind (read_name v) (fun n => required n classes (fun c => option_map (pair n)
      (match c with VArr l => all_of (map read_attribute l) | _ => option_map (fun a => [a]) (read_attribute c) end))).
  Definition read_element (classes : list (bytes * val)) (d : list (bytes * val)) : option (details read_attr) :=
    bind (optional (lit "P") d read_id) (fun parent => bind (optional (lit "ID") d read_string) (fun id => bind (optional (lit "Ref") d (read_list read_id)) (fun refs =>
    bind (optional (lit "R") d read_int) (fun revision => bind (optional (lit "Lang") d read_textstring) (fun lang =>
    bind (optional (lit "E") d read_textstring) (fun expanded =>
    bind (optional (lit "PhoneticAlphabet") d (read_open PhoneticAlphabet_table PhoneticAlphabet_Custom)) (fun alphabet =>
    bind (optional (lit "Phoneme") d read_textstring) (fun phoneme => bind (optional (lit "AF") d (read_list (read_file_of decode resolved))) (fun files =>
    bind (optional (lit "A") d (read_list read_attribute)) (fun attributes => bind (optional (lit "C") d (read_list (read_class classes))) (fun cs =>
    Some (mkDetails parent id refs revision lang expanded alphabet phoneme files attributes cs)))))))))))).
  (** The elements in their order: each before those in it. *)
  Fixpoint read_elements (classes : list (bytes * val)) (depth : nat) (v : val) : option (list (details read_attr)) :=
    match depth with
    | O => None
    | S n =>
        match v with
        | VInt _ => Some []
        | _ =>
            bind (object_dict resolved v) (fun d =>
            required (lit "Type") d (fun t => bind (read_name t) (fun t =>
            if bytes_eqb t (lit "StructElem") then
              bind (read_element classes d) (fun e => option_map (cons e)
                (match lookup (lit "K") d with
                 | None => Some []
                 | Some (VArr l) => option_map (@concat _) (all_of (map (read_elements classes n) l))
                 | Some v => read_elements classes n v
                 end))
            else if existsb (bytes_eqb t) [lit "MCR"; lit "OBJR"] then Some [] else None)))
        end
    end.
  Definition read_target (v : val) : option target :=
    match v with
    | VName n => option_map ToStandard (read_role n)
    | VArr [VName n; ns] => bind (read_namespace resolved ns) (fun uri =>
        if list_eq_dec Z.eq_dec uri pdf2_namespace then option_map ToPdf2 (read_role2 n) else Some (ToOther uri n))
    | _ => None
    end.
  Definition read_namespace_of (v : val) : option namespace_of :=
    bind (object_dict resolved v) (fun d =>
    bind (optional (lit "NS") d read_textstring) (fun uri => bind (optional (lit "Schema") d (read_file_of decode resolved)) (fun schema =>
    bind (optional (lit "RoleMapNS") d (fun v => bind (object_dict resolved v) (fun m => all_of (map (fun e => option_map (pair (fst e)) (read_target (snd e))) m)))) (fun types =>
    Some (mkNamespaceOf uri schema types))))).
  Definition read_tree_parts (depth : nat) (d : list (bytes * val)) : option tree_parts :=
    bind (optional (lit "IDTree") d (fun t => bind (tree_entries resolved (lit "Names") read_name_pairs depth t) (fun es =>
      all_of (map (fun e => option_map (pair (fst e)) (read_id (snd e))) es)))) (fun ids =>
    bind (optional (lit "ParentTreeNextKey") d read_int) (fun next => bind (optional (lit "Namespaces") d (read_list read_namespace_of)) (fun namespaces =>
    bind (optional (lit "PronunciationLexicon") d (read_list read_id)) (fun lexicon => bind (optional (lit "AF") d (read_list (read_file_of decode resolved))) (fun files =>
    Some (mkTreeParts ids next namespaces lexicon files)))))).
End Reader.
Definition read_document_elements decode (depth : nat) (file : bytes) : option (list (details read_attr)) :=
  bind (document_structure decode file) (fun root =>
  bind (optional (lit "ClassMap") root (object_dict (resolve decode file))) (fun m =>
  let read := read_elements decode (resolve decode file) (match m with Some m => m | None => [] end) depth in
  match lookup (lit "K") root with
  | None => Some []
  | Some (VArr l) => option_map (@concat _) (all_of (map read l))
  | Some v => read v
  end)).
Definition read_document_tree decode (depth : nat) (file : bytes) : option tree_parts :=
  bind (document_structure decode file) (read_tree_parts decode (resolve decode file) depth).

(** ** The program *)

Section Written.
  Variables (decode : option val -> bytes -> option bytes) (ops : list doc_op).
  Definition layout_written (calls : LayoutAttributes_calls) (l : layout f32 f3 rect TrackSizes_call LineHeight) : Prop :=
    called (lit "Placement") <| LayoutAttributes_placement x => x |> calls (la_placement l) /\
    called (lit "WritingMode") <| LayoutAttributes_writing_mode x => x |> calls (la_writing l) /\
    called (lit "BackgroundColor") <| LayoutAttributes_background_color x => x |> calls (la_background l) /\
    called (lit "BorderColor") <| LayoutAttributes_border_color x => x |> calls (la_border_color l) /\
    called (lit "BorderStyle") <| LayoutAttributes_border_style x => x |> calls (la_border_style l) /\
    called (lit "BorderThickness") <| LayoutAttributes_border_thickness x => x |> calls (la_border_thickness l) /\
    called (lit "Padding") <| LayoutAttributes_padding x => x |> calls (la_padding l) /\
    called (lit "Color") <| LayoutAttributes_color x => x |> calls (la_color l) /\
    called (lit "SpaceBefore") <| LayoutAttributes_space_before x => x |> calls (la_before l) /\
    called (lit "SpaceAfter") <| LayoutAttributes_space_after x => x |> calls (la_after l) /\
    called (lit "StartIndent") <| LayoutAttributes_start_indent x => x |> calls (la_start l) /\
    called (lit "EndIndent") <| LayoutAttributes_end_indent x => x |> calls (la_end l) /\
    called (lit "TextIndent") <| LayoutAttributes_text_indent x => x |> calls (la_text l) /\
    called (lit "TextAlign") <| LayoutAttributes_text_align x => x |> calls (la_align l) /\
    called (lit "Width") <| LayoutAttributes_width x => x |> calls (la_width l) /\
    called (lit "Height") <| LayoutAttributes_height x => x |> calls (la_height l) /\
    called (lit "BBox") <| LayoutAttributes_bbox x => x |> calls (la_box l) /\
    called (lit "BlockAlign") <| LayoutAttributes_block_align x => x |> calls (la_block l) /\
    called (lit "InlineAlign") <| LayoutAttributes_inline_align x => x |> calls (la_inline l) /\
    called (lit "TBorderStyle") <| LayoutAttributes_table_border_style x => x |> calls (la_table_style l) /\
    called (lit "TPadding") <| LayoutAttributes_table_padding x => x |> calls (la_table_padding l) /\
    called (lit "ColumnCount") <| LayoutAttributes_column_count x => x |> calls (la_columns l) /\
    called (lit "ColumnWidths") <| LayoutAttributes_column_widths x => x |> calls (la_column_widths l) /\
    called (lit "ColumnGap") <| LayoutAttributes_column_gap x => x |> calls (la_column_gap l) /\
    called (lit "LineHeight") <| LayoutAttributes_line_height x => x |> calls (la_line_height l) /\
    called (lit "BaselineShift") <| LayoutAttributes_baseline_shift x => x |> calls (la_shift l) /\
    called (lit "TextPosition") <| LayoutAttributes_text_position x => x |> calls (la_position l) /\
    called (lit "TextDecorationType") <| LayoutAttributes_text_decoration_type x => x |> calls (la_decoration l) /\
    called (lit "TextDecorationColor") <| LayoutAttributes_text_decoration_color x => x |> calls (la_decoration_color l) /\
    called (lit "TextDecorationThickness") <| LayoutAttributes_text_decoration_thickness x => x |> calls (la_decoration_thickness l) /\
    called (lit "GlyphOrientationVertical") <| LayoutAttributes_glyph_orientation_vertical x => x |> calls (la_orientation l) /\
    called (lit "RubyAlign") <| LayoutAttributes_ruby_align x => x |> calls (la_ruby_align l) /\
    called (lit "RubyPosition") <| LayoutAttributes_ruby_position x => x |> calls (la_ruby_position l).
  Definition list_written (calls : ListAttributes_calls) (l : list_of) : Prop :=
    called (lit "ListNumbering") <| ListAttributes_list_numbering x => x |> calls (ls_numbering l) /\
    called (lit "ContinuedList") <| ListAttributes_continued_list b => b |> calls (ls_continued l) /\
    called (lit "ContinuedFrom") <| ListAttributes_continued_from id => id |> calls (ls_from l).
  Definition field_written (calls : FieldAttributes_calls) (f : field_of) : Prop :=
    called (lit "Role") <| FieldAttributes_role x => x |> calls (fd_role f) /\
    called (lit "checked") <| FieldAttributes_checked x false => x |> calls (fd_checked f) /\
    called (lit "Checked") <| FieldAttributes_checked x true => x |> calls (fd_checked2 f) /\
    called (lit "Desc") <| FieldAttributes_description t => t |> calls (option_map TextPlain (fd_description f)).
  Definition table_written (calls : TableAttributes_calls) (t : table_of) : Prop :=
    called (lit "RowSpan") <| TableAttributes_row_span n => n |> calls (tb_rows t) /\
    called (lit "ColSpan") <| TableAttributes_col_span n => n |> calls (tb_columns t) /\
    called (lit "Headers") <| TableAttributes_headers l => l |> calls (tb_headers t) /\
    called (lit "Scope") <| TableAttributes_scope x => x |> calls (tb_scope t) /\
    called (lit "Summary") <| TableAttributes_summary t => t |> calls (option_map TextPlain (tb_summary t)) /\
    called (lit "Short") <| TableAttributes_short t => t |> calls (option_map TextPlain (tb_short t)).
  (** A custom name is not one of the standard's. *)
  Definition subtype_apart (x : ArtifactSubtype) : Prop := match x with ArtifactSubtype_Custom n => by_name n ArtifactSubtype_table = None | _ => True end.
  Definition alphabet_apart (x : PhoneticAlphabet) : Prop := match x with PhoneticAlphabet_Custom n => by_name n PhoneticAlphabet_table = None | _ => True end.
  Definition artifact_written (calls : ArtifactAttributes_calls) (a : artifact_of rect) : Prop :=
    called (lit "Type") <| ArtifactAttributes_artifact_type x => x |> calls (af_type a) /\
    called (lit "BBox") <| ArtifactAttributes_bbox b => b |> calls (af_box a) /\
    part_given (called (lit "Subtype") <| ArtifactAttributes_subtype x => x |> calls) (fun x y => x = y /\ subtype_apart x) (af_subtype a).
  Definition note_written (calls : FENoteAttributes_calls) (n : option NoteType) : Prop :=
    called (lit "NoteType") (fun c => match c with FENoteAttributes_note_type x => [inl x] end) calls n.
  Definition property_written (calls : UserProperty_calls) (p : property_of obj) : Prop :=
    called (lit "N") <| UserProperty_name t => t |> calls (option_map TextPlain (up_name p)) /\
    called (lit "V") <| UserProperty_value o => o |> calls (up_value p) /\
    called (lit "F") <| UserProperty_format t => t |> calls (option_map TextPlain (up_format p)) /\
    called (lit "H") <| UserProperty_hidden b => b |> calls (up_hidden p).
  (** Owners without methods of their own: the entries are written with [pair]. *)
  Definition plain_owner (o : AttributeOwner) : Prop :=
    match o with
    | AttributeOwner_Layout | AttributeOwner_List | AttributeOwner_PrintField | AttributeOwner_Table | AttributeOwner_Artifact | AttributeOwner_FENote
    | AttributeOwner_User | AttributeOwner_NSO => False
    | _ => True
    end.
  (** No entry has one of these keys. *)
  Definition apart (keys : list bytes) {V} (l : list (bytes * V)) : Prop := forallb (fun e => negb (existsb (bytes_eqb (fst e)) keys)) l = true.
  Definition attribute_written (calls : Attributes_calls) (a : asked_attr) : Prop :=
    match a with
    | OfLayout l => exists c, calls = [Typed (Attributes_layout c)] /\ layout_written c l
    | OfList l => exists c, calls = [Typed (Attributes_list c)] /\ list_written c l
    | OfField f => exists c, calls = [Typed (Attributes_field c)] /\ field_written c f
    | OfTable t => exists c, calls = [Typed (Attributes_table c)] /\ table_written c t
    | OfArtifact a => exists c, calls = [Typed (Attributes_artifact c)] /\ artifact_written c a
    | OfNote n => exists c, calls = [Typed (Attributes_note c)] /\ note_written c n
    | OfUser l => exists c, calls = [Typed (Attributes_user c)] /\ Forall2 property_written c l
    | OfNamespace uri l => exists ns, calls = [Typed (Attributes_namespace ns l)] /\ namespace_written ops ns uri /\ apart [lit "O"; lit "NS"] l
    | OfOwner o l => exists iso2020, calls = Typed (Attributes_owner o iso2020) :: map (fun e => Raw (fst e) (snd e)) l /\ plain_owner o /\ apart [lit "O"] l
    end.
  Definition class_written (classes : ClassMap_calls) (n : bytes) (x : bytes * list asked_attr) : Prop :=
    n = fst x /\ exists c, called n (fun c => match c with
        | ClassMap_single m a => if bytes_eqb n m then [inl (inl a)] else []
        | ClassMap_multiple m l => if bytes_eqb n m then [inl (inr l)] else []
        end) classes (Some c) /\
      match c with inl a => Forall2 attribute_written [a] (snd x) | inr l => Forall2 attribute_written l (snd x) end.
  Definition element_given (classes : ClassMap_calls) (calls : StructElement_calls) (e : details asked_attr) : Prop :=
    called (lit "P") <| StructElement_parent id => id |> calls (el_parent e) /\
    called (lit "ID") <| StructElement_id id => id |> calls (el_id e) /\
    called (lit "Ref") <| StructElement_refs l => l |> calls (el_refs e) /\
    called (lit "R") <| StructElement_revision n => n |> calls (el_revision e) /\
    called (lit "Lang") <| StructElement_lang t => t |> calls (el_lang e) /\
    called (lit "E") <| StructElement_expanded t => t |> calls (option_map TextPlain (el_expanded e)) /\
    part_given (called (lit "PhoneticAlphabet") <| StructElement_phonetic_alphabet x => x |> calls) (fun x y => x = y /\ alphabet_apart x) (el_alphabet e) /\
    called (lit "Phoneme") <| StructElement_phoneme t => t |> calls (el_phoneme e) /\
    part_given (called (lit "AF") <| StructElement_associated_files l => l |> calls) (Forall2 (file_written decode ops)) (el_files e) /\
    part_given (called (lit "A") <| StructElement_attributes l => l |> calls) (Forall2 attribute_written) (el_attributes e) /\
    part_given (called (lit "C") <| StructElement_attribute_class l => l |> calls) (Forall2 (class_written classes)) (el_classes e).
  Definition element_written (classes : ClassMap_calls) (id : Z) (e : details asked_attr) : Prop :=
    exists calls, In (DocTyped id (Ck_struct_element calls)) ops /\ element_given classes calls e.
  Definition classes_written (catalog : Catalog_calls) (classes : ClassMap_calls) : Prop :=
    exists calls m, called (lit "StructTreeRoot") <| Catalog_struct_tree_root c => c |> catalog (Some calls) /\
      called (lit "ClassMap") <| StructTreeRoot_class_map c => c |> calls m /\ classes = match m with Some m => m | None => [] end.
  Definition target_written (c : NamespaceRoleMap_call) (x : bytes * target) : Prop :=
    match c with
    | NamespaceRoleMap_to_pdf_1_7 n r => x = (n, ToStandard r)
    | NamespaceRoleMap_to_namespace n role ns => exists uri, namespace_written ops ns uri /\ uri <> pdf2_namespace /\ x = (n, ToOther uri role)
    | NamespaceRoleMap_to_pdf_2_0 n r ns => namespace_written ops ns pdf2_namespace /\ x = (n, ToPdf2 r)
    end.
  Definition namespace_of_written (id : Z) (n : namespace_of) : Prop :=
    exists calls, In (DocTyped id (Ck_namespace calls)) ops /\
      called (lit "NS") (fun c => match c with
        | Namespace_ns t => [inl t]
        | Namespace_pdf_2_ns => [inl (ascii "https://www.iso.org/pdf2/ssn")]
        | Namespace_pdf_1_7_ns => [inl (ascii "https://www.iso.org/pdf/ssn")]
        | Namespace_mathml_3_0_ns => [inl (ascii "https://www.w3.org/1998/Math/MathML")]
        | _ => [] end) calls (ns_uri n) /\
      part_given (called (lit "Schema") <| Namespace_schema c => c |> calls) (file_written decode ops) (ns_schema n) /\
      part_given (called (lit "RoleMapNS") <| Namespace_role_map_ns c => c |> calls)
        (fun c l => exists cs, c = map Typed cs /\ Forall2 target_written cs l) (ns_types n).
  (** The names of a tree, with the objects they stand for. *)
  Definition ids_written (calls : list name_tree_call) (t : tree_node bytes unit) : Prop := name_tree_written ops calls t.
  Definition tree_written (catalog : Catalog_calls) (ids : option (tree_node bytes unit)) (t : tree_parts) : Prop :=
    exists calls, called (lit "StructTreeRoot") <| Catalog_struct_tree_root c => c |> catalog (Some calls) /\
      part_given (called (lit "IDTree") <| StructTreeRoot_id_tree c => c |> calls) ids_written ids /\
      tp_ids t = option_map (fun t => map (fun e => (fst e, fst (snd e))) (tn_entries t)) ids /\
      called (lit "ParentTreeNextKey") <| StructTreeRoot_parent_tree_next_key n => n |> calls (tp_next t) /\
      part_given (called (lit "Namespaces") <| StructTreeRoot_namespaces l => l |> calls) (Forall2 namespace_of_written) (tp_namespaces t) /\
      called (lit "PronunciationLexicon") <| StructTreeRoot_pronunciation_lexicon l => l |> calls (tp_lexicon t) /\
      part_given (called (lit "AF") <| StructTreeRoot_associated_files l => l |> calls) (Forall2 (file_written decode ops)) (tp_files t).
End Written.
(** The elements of a structure, in the same order. *)
Fixpoint tag_ids (t : tag) : list Z :=
  match t with TagElement id _ _ _ _ _ kids => id :: flat_map tag_ids kids | _ => [] end.

(** ** What is read is what is asked for *)

Definition sides_are {A B} (P : A -> B -> Prop) (s : sides A) (t : sides B) : Prop :=
  P (s_before s) (s_before t) /\ P (s_after s) (s_after t) /\ P (s_start s) (s_start t) /\ P (s_end s) (s_end t).
Definition color_is (c : f3) (r : list val) : Prop := numbers_are (in_order3 c) r.
Definition tracks_are (c : TrackSizes_call) (r : tracks) : Prop :=
  match c, r with TrackSizes_uniform x, OneSize v => is_real x v | TrackSizes_individual l, EachSize vs => numbers_are l vs | _, _ => False end.
Definition height_is (h : LineHeight) (r : height_read) : Prop :=
  match h, r with LineHeight_Normal, NormalHeight => True | LineHeight_Auto, AutoHeight => True | LineHeight_Custom x, Height v => is_real x v | _, _ => False end.
Definition layout_is (a : layout f32 f3 rect TrackSizes_call LineHeight) (r : layout val (list val) (list val) tracks height_read) : Prop :=
  la_placement r = la_placement a /\ la_writing r = la_writing a /\ optionally color_is (la_background a) (la_background r) /\
  optionally (sides_are color_is) (la_border_color a) (la_border_color r) /\ la_border_style r = la_border_style a /\
  optionally (sides_are is_real) (la_border_thickness a) (la_border_thickness r) /\ optionally (sides_are is_real) (la_padding a) (la_padding r) /\
  optionally color_is (la_color a) (la_color r) /\ optionally is_real (la_before a) (la_before r) /\ optionally is_real (la_after a) (la_after r) /\
  optionally is_real (la_start a) (la_start r) /\ optionally is_real (la_end a) (la_end r) /\ optionally is_real (la_text a) (la_text r) /\ la_align r = la_align a /\
  optionally is_real (la_width a) (la_width r) /\ optionally is_real (la_height a) (la_height r) /\ optionally box_is (la_box a) (la_box r) /\ la_block r = la_block a /\
  la_inline r = la_inline a /\ la_table_style r = la_table_style a /\ optionally (sides_are is_real) (la_table_padding a) (la_table_padding r) /\
  la_columns r = la_columns a /\ optionally tracks_are (la_column_widths a) (la_column_widths r) /\ optionally tracks_are (la_column_gap a) (la_column_gap r) /\
  optionally height_is (la_line_height a) (la_line_height r) /\ optionally is_real (la_shift a) (la_shift r) /\ la_position r = la_position a /\
  la_decoration r = la_decoration a /\ optionally color_is (la_decoration_color a) (la_decoration_color r) /\
  optionally is_real (la_decoration_thickness a) (la_decoration_thickness r) /\ la_orientation r = la_orientation a /\ la_ruby_align r = la_ruby_align a /\
  la_ruby_position r = la_ruby_position a.
Definition entries_are (l : list (bytes * obj)) (r : list (bytes * val)) : Prop := Forall2 (fun e x => fst e = fst x /\ means (snd e) (snd x)) l r.
Definition artifact_is (a : artifact_of rect) (r : artifact_of (list val)) : Prop :=
  af_type r = af_type a /\ optionally box_is (af_box a) (af_box r) /\ af_subtype r = af_subtype a.
Definition property_is (p : property_of obj) (r : property_of val) : Prop :=
  up_name r = up_name p /\ optionally means (up_value p) (up_value r) /\ up_format r = up_format p /\ up_hidden r = up_hidden p.
Definition attribute_is (a : asked_attr) (r : read_attr) : Prop :=
  match a, r with
  | OfLayout l, OfLayout l' => layout_is l l'
  | OfList l, OfList l' => l' = l
  | OfField f, OfField f' => f' = f
  | OfTable t, OfTable t' => t' = t
  | OfArtifact a, OfArtifact a' => artifact_is a a'
  | OfNote n, OfNote n' => n' = n
  | OfUser l, OfUser l' => Forall2 property_is l l'
  | OfNamespace u l, OfNamespace u' l' => u' = u /\ entries_are l l'
  | OfOwner o l, OfOwner o' l' => o' = o /\ entries_are l l'
  | _, _ => False
  end.
Definition details_are (e : details asked_attr) (r : details read_attr) : Prop :=
  el_parent r = el_parent e /\ el_id r = el_id e /\ el_refs r = el_refs e /\ el_revision r = el_revision e /\ el_lang r = el_lang e /\ el_expanded r = el_expanded e /\
  el_alphabet r = el_alphabet e /\ el_phoneme r = el_phoneme e /\ el_files r = el_files e /\
  optionally (Forall2 attribute_is) (el_attributes e) (el_attributes r) /\
  optionally (Forall2 (fun x y => fst x = fst y /\ Forall2 attribute_is (snd x) (snd y))) (el_classes e) (el_classes r).
