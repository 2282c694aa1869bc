(** Specification: annotations with all that belongs to them besides their looks and actions (ISO 32000-2, 12.5). *)

From Coq Require Import ZArith List Bool.
From Verif Require ModelCmap ModelContent SpecContent SpecForm.
From Verif Require Import Bytes ModelFloat ModelBuf ModelObject ModelChunk ModelColor ModelSmall ModelPdf ModelTw ModelEnums ModelRoles ModelTwArgs
  ModelTwFiles ModelTwGraphics ModelTwAnnot ModelTwForms ModelTwAttr ModelTwXObj ModelTwFonts ModelTwDoc ModelFontDesc ModelDoc
  SpecLex SpecObj SpecText SpecMeans SpecRenum SpecChunk SpecFile SpecPdf SpecTyped SpecColor SpecSmall SpecTw SpecEnums SpecRoles SpecTwArgs
  SpecTwFiles SpecTwGraphics SpecTwAnnot SpecTwForms SpecTwAttr SpecTwXObj SpecTwFonts SpecTwDoc SpecFontDesc SpecDoc SpecPages SpecExtract SpecNav SpecViews SpecTagged SpecPaint SpecFunctions SpecActions SpecPresent SpecColors SpecImages SpecAppear SpecAttrs.
Import ListNotations.
Local Open Scope Z_scope.

(** ** What is read *)

(** Border styles (table 168), how icons fit (250), appearance characteristics (192), appearances (170), annotations (166 and those for their kinds). *)
Record border_of (N : Type) := mkBorderOf { bo_width : option N; bo_style : option BorderType; bo_dashes : option (list N) }.
Arguments mkBorderOf {N}. Arguments bo_width {N}. Arguments bo_style {N}. Arguments bo_dashes {N}.
Record fit_of (N : Type) := mkFitOf { fit_when : option IconScale; fit_how : option IconScaleType; fit_left : option (list N); fit_bounds : option bool }.
Arguments mkFitOf {N}. Arguments fit_when {N}. Arguments fit_how {N}. Arguments fit_left {N}. Arguments fit_bounds {N}.
Record characteristics (N : Type) := mkCharacteristics { ch_rotation : option Z; ch_border : option (list N); ch_background : option (list N);
    ch_normal : option (list Z); ch_rollover : option (list Z); ch_alternate : option (list Z); ch_normal_icon : option Z; ch_rollover_icon : option Z;
    ch_alternate_icon : option Z; ch_fit : option (fit_of N); ch_position : option TextPosition }.
Arguments mkCharacteristics {N}. Arguments ch_rotation {N}. Arguments ch_border {N}. Arguments ch_background {N}. Arguments ch_normal {N}. Arguments ch_rollover {N}.
    Arguments ch_alternate {N}. Arguments ch_normal_icon {N}. Arguments ch_rollover_icon {N}. Arguments ch_alternate_icon {N}. Arguments ch_fit {N}.
    Arguments ch_position {N}.
Record appearances := mkAppearances { ap_normal : option AppearanceEntry_call; ap_rollover : option AppearanceEntry_call; ap_alternate : option AppearanceEntry_call }.
Record remark (N : Type) := mkRemark { rm_contents : option (list Z); rm_page : option Z; rm_name : option (list Z); rm_modified : option rdate;
    rm_state : option bytes; rm_looks : option appearances; rm_frame : option (N * N * N * option (list N)); rm_border : option (border_of N);
    rm_color : option (list N); rm_key : option Z; rm_highlight : option HighlightEffect; rm_author : option (list Z); rm_subject : option (list Z);
    rm_quads : option (list N); rm_line : option (list N); rm_file : option file_of; rm_icon : option AnnotationIcon; rm_characteristics : option (characteristics N);
    rm_parent : option Z; rm_files : option (list file_of) }.
Arguments mkRemark {N}. Arguments rm_contents {N}. Arguments rm_page {N}. Arguments rm_name {N}. Arguments rm_modified {N}. Arguments rm_state {N}.
    Arguments rm_looks {N}. Arguments rm_frame {N}. Arguments rm_border {N}. Arguments rm_color {N}. Arguments rm_key {N}. Arguments rm_highlight {N}.
    Arguments rm_author {N}. Arguments rm_subject {N}. Arguments rm_quads {N}. Arguments rm_line {N}. Arguments rm_file {N}. Arguments rm_icon {N}.
    Arguments rm_characteristics {N}. Arguments rm_parent {N}. Arguments rm_files {N}.

(** ** The reader *)

Definition read_looks (v : val) : option AppearanceEntry_call :=
  match v with
  | VRef id 0 => Some (AppearanceEntry_stream id)
  | VDict l => option_map AppearanceEntry_streams (SpecNav.all_of (map (fun e => option_map (pair (fst e)) (read_id (snd e))) l))
  | _ => None
  end.
(** Radii, width, dashes. *)
Definition read_border (v : val) : option (val * val * val * option (list val)) :=
  match v with
  | VArr [a; b; c] => bind (read_number a) (fun a => bind (read_number b) (fun b => bind (read_number c) (fun c => Some (a, b, c, None))))
  | VArr [a; b; c; d] => bind (read_number a) (fun a => bind (read_number b) (fun b => bind (read_number c) (fun c =>
    bind (read_numbers d) (fun d => Some (a, b, c, Some d)))))
  | _ => None
  end.
Section Reader.
  Variable decode : option val -> bytes -> option bytes.
  Variable resolved : Z -> option indirect.
  Definition read_border_of (v : val) : option (border_of val) :=
    bind (object_dict resolved v) (fun d =>
    bind (optional (lit "W") d read_number) (fun x0 => bind (optional (lit "S") d (read_named BorderType_table)) (fun x1 =>
    bind (optional (lit "D") d read_numbers) (fun x2 =>
    Some (mkBorderOf x0 x1 x2))))).
  Definition read_fit_of (v : val) : option (fit_of val) :=
    bind (object_dict resolved v) (fun d =>
    bind (optional (lit "SW") d (read_named IconScale_table)) (fun x0 => bind (optional (lit "S") d (read_named IconScaleType_table)) (fun x1 =>
    bind (optional (lit "A") d read_numbers) (fun x2 => bind (optional (lit "FB") d read_boolean) (fun x3 =>
    Some (mkFitOf x0 x1 x2 x3)))))).
  Definition read_characteristics (v : val) : option (characteristics val) :=
    bind (object_dict resolved v) (fun d =>
    bind (optional (lit "R") d read_int) (fun x0 => bind (optional (lit "BC") d read_numbers) (fun x1 => bind (optional (lit "BG") d read_numbers) (fun x2 =>
    bind (optional (lit "CA") d read_textstring) (fun x3 => bind (optional (lit "RC") d read_textstring) (fun x4 =>
    bind (optional (lit "AC") d read_textstring) (fun x5 => bind (optional (lit "I") d read_id) (fun x6 => bind (optional (lit "RI") d read_id) (fun x7 =>
    bind (optional (lit "IX") d read_id) (fun x8 => bind (optional (lit "IF") d read_fit_of) (fun x9 =>
    bind (optional (lit "TP") d (read_numbered TextPosition_table)) (fun x10 =>
    Some (mkCharacteristics x0 x1 x2 x3 x4 x5 x6 x7 x8 x9 x10))))))))))))).
  Definition read_appearances (v : val) : option appearances :=
    bind (object_dict resolved v) (fun d =>
    bind (optional (lit "N") d read_looks) (fun x0 => bind (optional (lit "R") d read_looks) (fun x1 => bind (optional (lit "D") d read_looks) (fun x2 =>
    Some (mkAppearances x0 x1 x2))))).
  Definition read_remark (v : val) : option (remark val) :=
    bind (object_dict resolved v) (fun d =>
    bind (optional (lit "Contents") d read_textstring) (fun x0 => bind (optional (lit "P") d read_id) (fun x1 =>
    bind (optional (lit "NM") d read_textstring) (fun x2 => bind (optional (lit "M") d SpecInfo.read_date) (fun x3 =>
    bind (optional (lit "AS") d read_name) (fun x4 => bind (optional (lit "AP") d read_appearances) (fun x5 =>
    bind (optional (lit "Border") d read_border) (fun x6 => bind (optional (lit "BS") d read_border_of) (fun x7 =>
    bind (optional (lit "C") d read_numbers) (fun x8 => bind (optional (lit "StructParent") d read_int) (fun x9 =>
    bind (optional (lit "H") d (read_named HighlightEffect_table)) (fun x10 => bind (optional (lit "T") d read_textstring) (fun x11 =>
    bind (optional (lit "Subj") d read_textstring) (fun x12 => bind (optional (lit "QuadPoints") d read_numbers) (fun x13 =>
    bind (optional (lit "L") d read_numbers) (fun x14 => bind (optional (lit "FS") d (read_file_of decode resolved)) (fun x15 =>
    bind (optional (lit "Name") d (read_open AnnotationIcon_table AnnotationIcon_Custom)) (fun x16 => bind (optional (lit "MK") d read_characteristics) (fun x17 =>
    bind (optional (lit "Parent") d read_id) (fun x18 => bind (optional (lit "AF") d (read_list (read_file_of decode resolved))) (fun x19 =>
    Some (mkRemark x0 x1 x2 x3 x4 x5 x6 x7 x8 x9 x10 x11 x12 x13 x14 x15 x16 x17 x18 x19)))))))))))))))))))))).
  Definition read_page_marks (page : list (bytes * val)) : option (list (remark val)) :=
    match lookup (lit "Annots") page with None => Some [] | Some v => read_list read_remark v end.
End Reader.
(** The annotations of every page. *)
Definition read_marks decode (depth : nat) (file : bytes) : option (list (list (remark val))) :=
  bind (document_pages decode depth file) (fun pages => SpecNav.all_of (map (fun p => read_page_marks decode (resolve decode file) (snd p)) pages)).

(** ** The program *)

(** A key that both fields and annotations can have. *)
Definition mark_called {A} (k : bytes) (own : Field_call -> list (A + obj)) (annot : Annotation_call -> list (A + obj)) (calls : annotation_calls) (a : option A) : Prop :=
  match calls with inl calls => called k annot calls a | inr calls => SpecForm.field_called k own annot calls a end.
(** A custom icon is not one of the standard's. *)
Definition icon_apart (x : AnnotationIcon) : Prop := match x with AnnotationIcon_Custom n => by_name n AnnotationIcon_table = None | _ => True end.
Section Written.
  Variable decode : option val -> bytes -> option bytes.
  Variable ops : list doc_op.
  Definition border_of_written (calls : BorderStyle_calls) (x : (border_of f32)) : Prop :=
    called (lit "W") <| BorderStyle_width x => x |> calls (bo_width x) /\
    called (lit "S") <| BorderStyle_style x => x |> calls (bo_style x) /\
    called (lit "D") <| BorderStyle_dashes l => l |> calls (bo_dashes x).
  Definition fit_of_written (calls : IconFit_calls) (x : (fit_of f32)) : Prop :=
    called (lit "SW") <| IconFit_scale x => x |> calls (fit_when x) /\
    called (lit "S") <| IconFit_scale_type x => x |> calls (fit_how x) /\
    called (lit "A") <| IconFit_leftover_space x y => [x; y] |> calls (fit_left x) /\
    called (lit "FB") <| IconFit_fit_bounds b => b |> calls (fit_bounds x).
  Definition characteristics_written (calls : AppearanceCharacteristics_calls) (x : (characteristics f32)) : Prop :=
    called (lit "R") <| AppearanceCharacteristics_rotate z => z |> calls (ch_rotation x) /\
    called (lit "BC") (fun c => match c with AppearanceCharacteristics_border_color_transparent => [inl []] | AppearanceCharacteristics_border_color_gray g => [inl [g]] | AppearanceCharacteristics_border_color_rgb r g b => [inl [r; g; b]]
      | AppearanceCharacteristics_border_color_cymk a b c d => [inl [a; b; c; d]] | _ => [] end) calls (ch_border x) /\
    called (lit "BG") (fun c => match c with AppearanceCharacteristics_background_color_transparent => [inl []] | AppearanceCharacteristics_background_color_gray g => [inl [g]] | AppearanceCharacteristics_background_color_rgb r g b => [inl [r; g; b]]
      | AppearanceCharacteristics_background_color_cymk a b c d => [inl [a; b; c; d]] | _ => [] end) calls (ch_background x) /\
    called (lit "CA") <| AppearanceCharacteristics_normal_caption t => t |> calls (option_map TextPlain (ch_normal x)) /\
    called (lit "RC") <| AppearanceCharacteristics_rollover_caption t => t |> calls (option_map TextPlain (ch_rollover x)) /\
    called (lit "AC") <| AppearanceCharacteristics_alternate_caption t => t |> calls (option_map TextPlain (ch_alternate x)) /\
    called (lit "I") <| AppearanceCharacteristics_normal_icon i => i |> calls (ch_normal_icon x) /\
    called (lit "RI") <| AppearanceCharacteristics_rollover_icon i => i |> calls (ch_rollover_icon x) /\
    called (lit "IX") <| AppearanceCharacteristics_alternate_icon i => i |> calls (ch_alternate_icon x) /\
    part_given (called (lit "IF") <| AppearanceCharacteristics_icon_fit c => c |> calls) fit_of_written (ch_fit x) /\
    called (lit "TP") <| AppearanceCharacteristics_text_position x => x |> calls (ch_position x).
  Definition appearances_written (calls : Appearance_calls) (x : appearances) : Prop :=
    called (lit "N") <| Appearance_normal x => x |> calls (ap_normal x) /\
    called (lit "R") <| Appearance_rollover x => x |> calls (ap_rollover x) /\
    called (lit "D") <| Appearance_alternate x => x |> calls (ap_alternate x).
  Definition remark_written (calls : annotation_calls) (x : (remark f32)) : Prop :=
    annotation_called (lit "Contents") <| Annotation_contents t => t |> calls (option_map TextPlain (rm_contents x)) /\
    annotation_called (lit "P") <| Annotation_page i => i |> calls (rm_page x) /\
    annotation_called (lit "NM") <| Annotation_name t => t |> calls (option_map TextPlain (rm_name x)) /\
    part_given (annotation_called (lit "M") <| Annotation_modified d => d |> calls) date_is (rm_modified x) /\
    annotation_called (lit "AS") <| Annotation_appearance_state n => n |> calls (rm_state x) /\
    part_given (annotation_called (lit "AP") <| Annotation_appearance c => c |> calls) appearances_written (rm_looks x) /\
    annotation_called (lit "Border") <| Annotation_border h v w d => (h, v, w, d) |> calls (rm_frame x) /\
    part_given (annotation_called (lit "BS") <| Annotation_border_style c => c |> calls) border_of_written (rm_border x) /\
    annotation_called (lit "C") (fun c => match c with Annotation_color_transparent => [inl []] | Annotation_color_gray g => [inl [g]] | Annotation_color_rgb r g b => [inl [r; g; b]]
      | Annotation_color_cmyk a b c d => [inl [a; b; c; d]] | _ => [] end) calls (rm_color x) /\
    annotation_called (lit "StructParent") <| Annotation_struct_parent k => k |> calls (rm_key x) /\
    annotation_called (lit "H") <| Annotation_highlight x => x |> calls (rm_highlight x) /\
    mark_called (lit "T") <| Field_partial_name t => TextPlain t |> <| Annotation_author t => t |> calls (option_map TextPlain (rm_author x)) /\
    annotation_called (lit "Subj") <| Annotation_subject t => t |> calls (option_map TextPlain (rm_subject x)) /\
    annotation_called (lit "QuadPoints") <| Annotation_quad_points l => l |> calls (rm_quads x) /\
    annotation_called (lit "L") <| Annotation_line_to a b c d => [a; b; c; d] |> calls (rm_line x) /\
    part_given (annotation_called (lit "FS") <| Annotation_file_spec c => c |> calls) (file_written decode ops) (rm_file x) /\
    part_given (annotation_called (lit "Name") <| Annotation_icon x => x |> calls) (fun x y => x = y /\ icon_apart x) (rm_icon x) /\
    part_given (annotation_called (lit "MK") <| Annotation_appearance_characteristics c => c |> calls) characteristics_written (rm_characteristics x) /\
    mark_called (lit "Parent") <| Field_parent i => i |> <| Annotation_parent i => i |> calls (rm_parent x) /\
    part_given (annotation_called (lit "AF") <| Annotation_associated_files l => l |> calls) (Forall2 (file_written decode ops)) (rm_files x).
  Definition page_marks (page : Z) (l : list (Z * remark f32)) : Prop :=
    SpecForm.page_lists ops page (map fst l) /\
    Forall (fun x => exists calls, In (DocTyped (fst x) match calls with inl calls => Ck_annotation calls | inr calls => Ck_form_field calls end) ops /\
      remark_written calls (snd x)) l.
End Written.

(** ** What is read is what is asked for *)

Definition frame_is (x : f32 * f32 * f32 * option (list f32)) (r : val * val * val * option (list val)) : Prop :=
  let '(h, v, w, d) := x in let '(h', v', w', d') := r in is_real h h' /\ is_real v v' /\ is_real w w' /\ optionally numbers_are d d'.
Definition border_of_is (x : (border_of f32)) (r : (border_of val)) : Prop :=
  optionally is_real (bo_width x) (bo_width r) /\ bo_style r = bo_style x /\ optionally numbers_are (bo_dashes x) (bo_dashes r).
Definition fit_of_is (x : (fit_of f32)) (r : (fit_of val)) : Prop :=
  fit_when r = fit_when x /\ fit_how r = fit_how x /\ optionally numbers_are (fit_left x) (fit_left r) /\ fit_bounds r = fit_bounds x.
Definition characteristics_is (x : (characteristics f32)) (r : (characteristics val)) : Prop :=
  ch_rotation r = ch_rotation x /\ optionally numbers_are (ch_border x) (ch_border r) /\ optionally numbers_are (ch_background x) (ch_background r) /\
    ch_normal r = ch_normal x /\ ch_rollover r = ch_rollover x /\ ch_alternate r = ch_alternate x /\ ch_normal_icon r = ch_normal_icon x /\
    ch_rollover_icon r = ch_rollover_icon x /\ ch_alternate_icon r = ch_alternate_icon x /\ optionally fit_of_is (ch_fit x) (ch_fit r) /\ ch_position r = ch_position x.
Definition remark_is (x : (remark f32)) (r : (remark val)) : Prop :=
  rm_contents r = rm_contents x /\ rm_page r = rm_page x /\ rm_name r = rm_name x /\ rm_modified r = rm_modified x /\ rm_state r = rm_state x /\
    rm_looks r = rm_looks x /\ optionally frame_is (rm_frame x) (rm_frame r) /\ optionally border_of_is (rm_border x) (rm_border r) /\
    optionally numbers_are (rm_color x) (rm_color r) /\ rm_key r = rm_key x /\ rm_highlight r = rm_highlight x /\ rm_author r = rm_author x /\
    rm_subject r = rm_subject x /\ optionally numbers_are (rm_quads x) (rm_quads r) /\ optionally numbers_are (rm_line x) (rm_line r) /\ rm_file r = rm_file x /\
    rm_icon r = rm_icon x /\ optionally characteristics_is (rm_characteristics x) (rm_characteristics r) /\ rm_parent r = rm_parent x /\ rm_files r = rm_files x.
