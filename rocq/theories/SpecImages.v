(** Specification: the images and forms that page descriptions refer to by name (ISO 32000-1, 7.4, 8.9.5, 8.10, 11.6.5.3), with all that they refer to:
    sample data, parameters of filters, masks, color spaces, transparency groups, metadata, files, and the XObjects that forms name in turn. *)

From Coq Require Import ZArith List Bool.
From Verif Require ModelCmap ModelContent SpecContent.
From Verif Require Import Bytes ModelFloat ModelBuf ModelObject ModelChunk ModelColor ModelSmall ModelPdf ModelTw ModelEnums ModelRoles ModelTwArgs
  ModelTwFiles ModelTwGraphics ModelTwAnnot ModelTwForms ModelTwAttr ModelTwXObj ModelTwFonts ModelTwDoc ModelFontDesc ModelDoc
  SpecLex SpecObj SpecText SpecMeans SpecRenum SpecChunk SpecFile SpecPdf SpecTyped SpecColor SpecSmall SpecTw SpecEnums SpecRoles SpecTwArgs
  SpecTwFiles SpecTwGraphics SpecTwAnnot SpecTwForms SpecTwAttr SpecTwXObj SpecTwFonts SpecTwDoc SpecFontDesc SpecDoc SpecPages SpecExtract SpecNav SpecViews SpecPaint SpecFunctions SpecActions SpecPresent SpecColors.
From Verif Require SpecInfo.
Import ListNotations.
Local Open Scope Z_scope.

(** ** What is read *)

(** Parameters of filters (tables 8, 11, 12, 13, 14); with the content of the stream of global segments. *)
Record filter_parms := mkFilterParms { fp_predictor : option Predictor; fp_colors : option Z; fp_bits : option Z; fp_columns : option Z; fp_early : option Z;
  fp_k : option Z; fp_eol : option bool; fp_align : option bool; fp_rows : option Z; fp_eob : option bool; fp_black : option bool; fp_damaged : option Z;
  fp_globals : option bytes; fp_transform : option Z; fp_type : option unit; fp_name : option bytes }.
(** Sample data (table 89) and masks; [N] for numbers, [S] for color spaces. *)
Record pixels (N S : Type) := mkPixels { px_width : option Z; px_height : option Z; px_space : option S; px_bits : option Z;
  px_intent : option ModelContent.rendering_intent; px_stencil : option bool; px_decode : option (list N); px_interpolate : option bool;
  px_alternates : option (list Z); px_in_data : option SMaskInData; px_parent : option Z; px_matte : option (list N); px_metadata : option bytes;
  px_files : option (list file_of); px_parms : option filter_parms; px_content : bytes }.
Arguments mkPixels {N S}. Arguments px_width {N S}. Arguments px_height {N S}. Arguments px_space {N S}. Arguments px_bits {N S}. Arguments px_intent {N S}.
Arguments px_stencil {N S}. Arguments px_decode {N S}. Arguments px_interpolate {N S}. Arguments px_alternates {N S}. Arguments px_in_data {N S}.
Arguments px_parent {N S}. Arguments px_matte {N S}. Arguments px_metadata {N S}. Arguments px_files {N S}. Arguments px_parms {N S}. Arguments px_content {N S}.
(** An image, with the colors that are left out or the mask, and its soft mask; masks have no masks themselves. *)
Record image (N S : Type) := mkImage { im_pixels : pixels N S; im_mask : option (list Z + pixels N S); im_soft : option (pixels N S) }.
Arguments mkImage {N S}. Arguments im_pixels {N S}. Arguments im_mask {N S}. Arguments im_soft {N S}.
(** The document that a form stands for (table 97). *)
Record reference := mkReference { rf_file : option file_of; rf_page : option (Z + list Z); rf_id : option (list bytes) }.
(** Forms (table 95); [R] for rectangles, [M] for matrices, [G] for groups. *)
Record form (R M G : Type) := mkForm { fm_box : option R; fm_matrix : option M; fm_group : option G; fm_parent : option Z; fm_parents : option Z;
  fm_reference : option reference; fm_metadata : option bytes; fm_modified : option rdate; fm_files : option (list file_of) }.
Arguments mkForm {R M G}. Arguments fm_box {R M G}. Arguments fm_matrix {R M G}. Arguments fm_group {R M G}. Arguments fm_parent {R M G}. Arguments fm_parents {R M G}.
Arguments fm_reference {R M G}. Arguments fm_metadata {R M G}. Arguments fm_modified {R M G}. Arguments fm_files {R M G}.
Inductive read_object :=
| ReadImage (i : image val read_space)
| ReadForm (f : form (list val) (list val) (group val)) (objects : list (bytes * read_object)).

(** ** The reader *)

Section Reader.
  Variable decode : option val -> bytes -> option bytes.
  Variable resolved : Z -> option indirect.
  Definition read_parms (v : val) : option filter_parms :=
    bind (object_dict resolved v) (fun d => let int k := optional k d read_int in let flag k := optional k d read_boolean in
    bind (optional (lit "Predictor") d (read_numbered Predictor_table)) (fun predictor => bind (int (lit "Colors")) (fun colors =>
    bind (int (lit "BitsPerComponent")) (fun bits => bind (int (lit "Columns")) (fun columns => bind (int (lit "EarlyChange")) (fun early =>
    bind (int (lit "K")) (fun k => bind (flag (lit "EndOfLine")) (fun eol => bind (flag (lit "EncodedByteAlign")) (fun align =>
    bind (int (lit "Rows")) (fun rows => bind (flag (lit "EndOfBlock")) (fun eob => bind (flag (lit "BlackIs1")) (fun black =>
    bind (int (lit "DamagedRowsBeforeError")) (fun damaged => bind (optional (lit "JBIG2Globals") d (its_content decode resolved)) (fun globals =>
    bind (int (lit "ColorTransform")) (fun transform => bind (optional (lit "Type") d (is_it (lit "CryptFilterDecodeParms"))) (fun t =>
    bind (optional (lit "Name") d read_name) (fun name =>
    Some (mkFilterParms predictor colors bits columns early k eol align rows eob black damaged globals transform t name)))))))))))))))))).
  Definition object_of_type (t : bytes) (id : Z) : option (list (bytes * val)) :=
    match resolved id with
    | Some (IStream _ _ d _) => required (lit "Subtype") d (fun v => bind (read_name v) (fun s => if bytes_eqb s t then Some d else None))
    | _ => None
    end.
  Definition read_pixels (n : nat) (id : Z) : option (pixels val read_space) :=
    bind (object_of_type (lit "Image") id) (fun d => let int k := optional k d read_int in
    bind (int (lit "Width")) (fun width => bind (int (lit "Height")) (fun height =>
    bind (optional (lit "ColorSpace") d (read_color_space decode resolved n)) (fun space => bind (int (lit "BitsPerComponent")) (fun bits =>
    bind (optional (lit "Intent") d (read_named RenderingIntent_table)) (fun intent => bind (optional (lit "ImageMask") d read_boolean) (fun stencil =>
    bind (optional (lit "Decode") d read_numbers) (fun decoded => bind (optional (lit "Interpolate") d read_boolean) (fun interpolate =>
    bind (optional (lit "Alternates") d (read_list read_id)) (fun alternates => bind (optional (lit "SMaskInData") d (read_numbered SMaskInData_table)) (fun in_data =>
    bind (int (lit "StructParent")) (fun parent => bind (optional (lit "Matte") d read_numbers) (fun matte =>
    bind (optional (lit "Metadata") d (its_content decode resolved)) (fun metadata =>
    bind (optional (lit "AF") d (read_list (read_file_of decode resolved))) (fun files =>
    bind (optional (lit "DecodeParms") d read_parms) (fun parms => bind (stream_content decode resolved id) (fun content =>
    Some (mkPixels width height space bits intent stencil decoded interpolate alternates in_data parent matte metadata files parms content)))))))))))))))))).
  Definition read_image_of (n : nat) (id : Z) : option (image val read_space) :=
    let mask v := match v with VArr _ => option_map inl (read_list read_int v) | _ => option_map inr (bind (read_id v) (read_pixels n)) end in
    bind (object_of_type (lit "Image") id) (fun d => bind (read_pixels n id) (fun p =>
    bind (optional (lit "Mask") d mask) (fun m => bind (optional (lit "SMask") d (fun v => bind (read_id v) (read_pixels n))) (fun s =>
    Some (mkImage p m s))))).
  Definition read_reference (v : val) : option reference :=
    bind (object_dict resolved v) (fun d =>
    bind (optional (lit "F") d (read_file_of decode resolved)) (fun f =>
    bind (optional (lit "Page") d (fun v => match v with VInt z => Some (inl z) | _ => option_map inr (read_textstring v) end)) (fun page =>
    bind (optional (lit "ID") d (read_list read_string)) (fun id => Some (mkReference f page id))))).
  Definition read_form_of (d : list (bytes * val)) : option (form (list val) (list val) (group val)) :=
    bind (optional (lit "BBox") d read_numbers) (fun box => bind (optional (lit "Matrix") d read_numbers) (fun matrix =>
    bind (optional (lit "Group") d (read_group_of resolved)) (fun g => bind (optional (lit "StructParent") d read_int) (fun parent =>
    bind (optional (lit "StructParents") d read_int) (fun parents => bind (optional (lit "Ref") d read_reference) (fun ref =>
    bind (optional (lit "Metadata") d (its_content decode resolved)) (fun metadata => bind (optional (lit "LastModified") d SpecInfo.read_date) (fun modified =>
    bind (optional (lit "AF") d (read_list (read_file_of decode resolved))) (fun files =>
    Some (mkForm box matrix g parent parents ref metadata modified files)))))))))).
  (** Images and forms, with all XObjects in the resources of the forms. *)
  Fixpoint read_object_at (n : nat) (v : val) : option read_object :=
    match n with
    | O => None
    | S n =>
        bind (read_id v) (fun id =>
        match object_of_type (lit "Form") id with
        | Some d =>
            bind (read_form_of d) (fun f =>
            bind (match lookup (lit "Resources") d with Some res => named_in (lit "XObject") (read_object_at n) res | None => Some [] end) (fun l =>
            Some (ReadForm f l)))
        | None => option_map ReadImage (read_image_of n id)
        end)
    end.
End Reader.
(** For every page. *)
Definition read_page_objects decode (depth : nat) (file : bytes) : option (list (list (bytes * read_object))) :=
  bind (document_views decode depth file) (fun views =>
  all_of (map (fun v => named_in (lit "XObject") (read_object_at decode (resolve decode file) depth) (snd (fst v))) views)).

(** ** The program *)

(** A color space that is written in place, or the name of one. *)
Definition space_or_name : Type := (space_asked + bytes)%type.
Inductive object_asked :=
| AskImage (i : image f32 space_or_name)
| AskForm (f : form rect f6 (group cs)) (objects : list (bytes * (Z * object_asked))).
Section Written.
  Variables (decode : option val -> bytes -> option bytes) (ops : list doc_op).
  Definition stream_written (id : Z) (content : bytes) : Prop :=
    exists data calls, In (DocTyped id (Ck_stream data calls)) ops /\ stored decode calls data content.
  Definition zero_or_one (b : bool) : Z := if b then 1 else 0.
  Definition parms_written (calls : DecodeParms_calls) (p : filter_parms) : Prop :=
    called (lit "Predictor") <| DecodeParms_predictor x => x |> calls (fp_predictor p) /\
    called (lit "Colors") <| DecodeParms_colors x => x |> calls (fp_colors p) /\
    called (lit "BitsPerComponent") <| DecodeParms_bits_per_component x => x |> calls (fp_bits p) /\
    called (lit "Columns") <| DecodeParms_columns x => x |> calls (fp_columns p) /\
    called (lit "EarlyChange") <| DecodeParms_early_change b => zero_or_one b |> calls (fp_early p) /\
    called (lit "K") <| DecodeParms_k x => x |> calls (fp_k p) /\
    called (lit "EndOfLine") <| DecodeParms_end_of_line b => b |> calls (fp_eol p) /\
    called (lit "EncodedByteAlign") <| DecodeParms_encoded_byte_align b => b |> calls (fp_align p) /\
    called (lit "Rows") <| DecodeParms_rows x => x |> calls (fp_rows p) /\
    called (lit "EndOfBlock") <| DecodeParms_end_of_block b => b |> calls (fp_eob p) /\
    called (lit "BlackIs1") <| DecodeParms_black_is_1 b => b |> calls (fp_black p) /\
    called (lit "DamagedRowsBeforeError") <| DecodeParms_damaged_rows_before_error x => x |> calls (fp_damaged p) /\
    part_given (called (lit "JBIG2Globals") <| DecodeParms_jbig2_globals id => id |> calls) stream_written (fp_globals p) /\
    called (lit "ColorTransform") <| DecodeParms_color_transform b => zero_or_one b |> calls (fp_transform p) /\
    called (lit "Type") (fun c => match c with DecodeParms_crypt_type => [inl tt] | _ => [] end) calls (fp_type p) /\
    called (lit "Name") <| DecodeParms_name n => n |> calls (fp_name p).
  Definition space_given (c : cs + bytes) (s : space_or_name) : Prop :=
    match c, s with inl c, inl s => space_written decode ops c s | inr n, inr m => m = n | _, _ => False end.
  Definition pixels_given (data : bytes) (calls : ImageXObject_calls) (p : pixels f32 space_or_name) : Prop :=
    stream_called (lit "Subtype") no_method no_method calls None /\
    stream_called (lit "Width") (fun _ => []) <| ImageXObject_width x => x |> calls (px_width p) /\
    stream_called (lit "Height") (fun _ => []) <| ImageXObject_height x => x |> calls (px_height p) /\
    part_given (stream_called (lit "ColorSpace") (fun _ => [])
      (fun c => match c with ImageXObject_color_space c => [inl (inl c)] | ImageXObject_color_space_name n => [inl (inr n)] | _ => [] end) calls)
      space_given (px_space p) /\
    stream_called (lit "BitsPerComponent") (fun _ => []) <| ImageXObject_bits_per_component x => x |> calls (px_bits p) /\
    stream_called (lit "Intent") (fun _ => []) <| ImageXObject_intent x => x |> calls (px_intent p) /\
    stream_called (lit "ImageMask") (fun _ => []) <| ImageXObject_image_mask b => b |> calls (px_stencil p) /\
    stream_called (lit "Decode") (fun _ => []) <| ImageXObject_decode l => l |> calls (px_decode p) /\
    stream_called (lit "Interpolate") (fun _ => []) <| ImageXObject_interpolate b => b |> calls (px_interpolate p) /\
    stream_called (lit "Alternates") (fun _ => []) <| ImageXObject_alternates l => l |> calls (px_alternates p) /\
    stream_called (lit "SMaskInData") (fun _ => []) <| ImageXObject_s_mask_in_data x => x |> calls (px_in_data p) /\
    stream_called (lit "StructParent") (fun _ => []) <| ImageXObject_struct_parent x => x |> calls (px_parent p) /\
    stream_called (lit "Matte") (fun _ => []) <| ImageXObject_matte l => l |> calls (px_matte p) /\
    part_given (stream_called (lit "Metadata") (fun _ => []) <| ImageXObject_metadata id => id |> calls) (metadata_content decode ops) (px_metadata p) /\
    part_given (stream_called (lit "AF") (fun _ => []) <| ImageXObject_associated_files l => l |> calls) (Forall2 (file_written decode ops)) (px_files p) /\
    part_given (stream_called (lit "DecodeParms") <| Stream_decode_parms c => c |> (fun _ => []) calls) parms_written (px_parms p) /\
    stored_with decode calls data (px_content p).
  Definition mask_image_written (id : Z) (p : pixels f32 space_or_name) : Prop :=
    exists data calls, In (DocTyped id (Ck_image_xobject data calls)) ops /\ pixels_given data calls p.
  Definition mask_of (m : list Z + Z) (x : list Z + pixels f32 space_or_name) : Prop :=
    match m, x with inl l, inl l' => l' = l | inr id, inr p => mask_image_written id p | _, _ => False end.
  Definition image_written (id : Z) (i : image f32 space_or_name) : Prop :=
    exists data calls, In (DocTyped id (Ck_image_xobject data calls)) ops /\ pixels_given data calls (im_pixels i) /\
      part_given (stream_called (lit "Mask") (fun _ => [])
        (fun c => match c with ImageXObject_color_mask l => [inl (inl l)] | ImageXObject_stencil_mask id => [inl (inr id)] | _ => [] end) calls) mask_of (im_mask i) /\
      part_given (stream_called (lit "SMask") (fun _ => []) <| ImageXObject_s_mask id => id |> calls) mask_image_written (im_soft i).
  Definition reference_written (calls : Reference_calls) (r : reference) : Prop :=
    part_given (called (lit "F") <| Reference_file_spec c => c |> calls) (file_written decode ops) (rf_file r) /\
    called (lit "Page") (fun c => match c with Reference_page_number n => [inl (inl n)] | Reference_page_label t => [inl (inr t)] | _ => [] end) calls
      (option_map (fun p => match p with inl n => inl n | inr t => inr (TextPlain t) end) (rf_page r)) /\
    part_given (called (lit "ID") <| Reference_id i => i |> calls) (fun i l => l = [fst i; snd i]) (rf_id r).
  Definition form_given (calls : FormXObject_calls) (f : form rect f6 (group cs)) : Prop :=
    stream_called (lit "Subtype") no_method no_method calls None /\
    stream_called (lit "BBox") (fun _ => []) <| FormXObject_bbox r => r |> calls (fm_box f) /\
    stream_called (lit "Matrix") (fun _ => []) <| FormXObject_matrix m => m |> calls (fm_matrix f) /\
    part_given (stream_called (lit "Group") (fun _ => []) <| FormXObject_group c => c |> calls) group_written (fm_group f) /\
    stream_called (lit "StructParent") (fun _ => []) <| FormXObject_struct_parent x => x |> calls (fm_parent f) /\
    stream_called (lit "StructParents") (fun _ => []) <| FormXObject_struct_parents x => x |> calls (fm_parents f) /\
    part_given (stream_called (lit "Ref") (fun _ => []) <| FormXObject_reference c => c |> calls) reference_written (fm_reference f) /\
    part_given (stream_called (lit "Metadata") (fun _ => []) <| FormXObject_metadata id => id |> calls) (metadata_content decode ops) (fm_metadata f) /\
    part_given (stream_called (lit "LastModified") (fun _ => []) <| FormXObject_last_modified d => d |> calls) date_is (fm_modified f) /\
    part_given (stream_called (lit "AF") (fun _ => []) <| FormXObject_associated_files l => l |> calls) (Forall2 (file_written decode ops)) (fm_files f).
  Definition objects_named {A} (res : Resources_calls) (xs : list (bytes * (Z * A))) : Prop :=
    let given := called (lit "XObject") <| Resources_x_objects es => es |> res in
    (xs = [] /\ given None) \/ given (Some (as_references (map (fun x => (fst x, fst (snd x))) xs))).
  Fixpoint object_written (id : Z) (o : object_asked) : Prop :=
    match o with
    | AskImage i => image_written id i
    | AskForm f xs =>
        (exists data calls, In (DocTyped id (Ck_form_xobject data calls)) ops /\ form_given calls f /\
          let given := stream_called (lit "Resources") (fun _ => []) <| FormXObject_resources r => r |> calls in
          ((xs = [] /\ given None) \/ exists res, given (Some res) /\ objects_named res xs)) /\
        (fix all l := match l with [] => True | (_, (id, o)) :: l => object_written id o /\ all l end) xs
    end.
  Definition page_objects (p : page_asked) (xs : list (bytes * (Z * object_asked))) : Prop :=
    objects_named (pa_resources p) xs /\ Forall (fun x => object_written (fst (snd x)) (snd (snd x))) xs.
End Written.

(** ** What is read is what was asked for *)

Definition space_or_name_is (a : space_or_name) (r : read_space) : Prop := match a with inl s => space_is s r | inr n => r = PlainSpace (VName n) end.
Definition pixels_are (a : pixels f32 space_or_name) (r : pixels val read_space) : Prop :=
  px_width r = px_width a /\ px_height r = px_height a /\ optionally space_or_name_is (px_space a) (px_space r) /\ px_bits r = px_bits a /\
  px_intent r = px_intent a /\ px_stencil r = px_stencil a /\ optionally numbers_are (px_decode a) (px_decode r) /\ px_interpolate r = px_interpolate a /\
  px_alternates r = px_alternates a /\ px_in_data r = px_in_data a /\ px_parent r = px_parent a /\ optionally numbers_are (px_matte a) (px_matte r) /\
  px_metadata r = px_metadata a /\ px_files r = px_files a /\ px_parms r = px_parms a /\ px_content r = px_content a.
Definition masked_is (a : list Z + pixels f32 space_or_name) (r : list Z + pixels val read_space) : Prop :=
  match a, r with inl l, inl l' => l' = l | inr p, inr q => pixels_are p q | _, _ => False end.
Definition image_is (a : image f32 space_or_name) (r : image val read_space) : Prop :=
  pixels_are (im_pixels a) (im_pixels r) /\ optionally masked_is (im_mask a) (im_mask r) /\ optionally pixels_are (im_soft a) (im_soft r).
Definition box_is (a : rect) (r : list val) : Prop := numbers_are [x1 a; y1 a; x2 a; y2 a] r.
Definition matrix_is (a : f6) (r : list val) : Prop := numbers_are (in_order6 a) r.
Definition form_facts (a : form rect f6 (group cs)) (r : form (list val) (list val) (group val)) : Prop :=
  optionally box_is (fm_box a) (fm_box r) /\ optionally matrix_is (fm_matrix a) (fm_matrix r) /\ optionally group_is (fm_group a) (fm_group r) /\
  fm_parent r = fm_parent a /\ fm_parents r = fm_parents a /\ fm_reference r = fm_reference a /\ fm_metadata r = fm_metadata a /\
  fm_modified r = fm_modified a /\ fm_files r = fm_files a.
Inductive object_is : object_asked -> read_object -> Prop :=
| image_object i r : image_is i r -> object_is (AskImage i) (ReadImage r)
| form_object f g xs l : form_facts f g -> Forall2 (fun a r => fst r = fst a /\ object_is (snd (snd a)) (snd r)) xs l -> object_is (AskForm f xs) (ReadForm g l).
Definition objects_are : list (bytes * (Z * object_asked)) -> list (bytes * read_object) -> Prop :=
  Forall2 (fun a r => fst r = fst a /\ object_is (snd (snd a)) (snd r)).
