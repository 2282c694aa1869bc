(** Specification: the color spaces, shadings, patterns and graphics state dictionaries that page descriptions refer to by name (ISO 32000-1,
    7.8.3, 8.4.5, 8.6.5, 8.6.6, 8.7, 11.6.5), with all that they refer to: functions, ICC profiles, the contents of tiles and of soft masks. *)

From Coq Require Import ZArith List Bool.
From Verif Require ModelCmap ModelContent SpecContent.
From Verif Require Import Bytes ModelFloat ModelBuf ModelObject ModelChunk ModelColor ModelSmall ModelPdf ModelTw ModelEnums ModelRoles ModelTwArgs
  ModelTwFiles ModelTwGraphics ModelTwAnnot ModelTwForms ModelTwAttr ModelTwXObj ModelTwFonts ModelTwDoc ModelFontDesc ModelDoc
  SpecLex SpecObj SpecText SpecMeans SpecRenum SpecChunk SpecFile SpecPdf SpecTyped SpecColor SpecSmall SpecTw SpecEnums SpecRoles SpecTwArgs
  SpecTwFiles SpecTwGraphics SpecTwAnnot SpecTwForms SpecTwAttr SpecTwXObj SpecTwFonts SpecTwDoc SpecFontDesc SpecDoc SpecPages SpecExtract SpecNav SpecViews SpecPaint SpecFunctions.
Import ListNotations.
Local Open Scope Z_scope.

(** ** The reader *)

Inductive read_space :=
| PlainSpace (v : val)
| IccSpace (d : list (bytes * val)) (profile : bytes)
| TintedSpace (colorants : list bytes) (alternate : read_space) (tint : pdf_function) (attributes : list val).
Record read_shading := mkShading { sh_dict : list (bytes * val); sh_space : read_space; sh_function : option pdf_function; sh_data : option bytes }.
Definition read_paintings : Type := list (painted read_op read_form read_image).
Inductive read_mask :=
| MaskByName (n : bytes)
| MaskByGroup (d : list (bytes * val)) (group : read_paintings) (transfer : option pdf_function).
Record read_gstate := mkGstate { gs_dict : list (bytes * val); gs_mask : option read_mask;
  gs_black : option pdf_function; gs_undercolor : option pdf_function; gs_transfer : option pdf_function }.
Inductive read_pattern :=
| Tiles (d : list (bytes * val)) (tile : read_paintings)
| Shades (d : list (bytes * val)) (s : read_shading) (g : option read_gstate).

Section Reader.
  Variable decode : option val -> bytes -> option bytes.
  Variable resolved : Z -> option indirect.

  (** 8.6.5.5, 8.6.6.4, 8.6.6.5. *)
  Fixpoint read_color_space (depth : nat) (v : val) : option read_space :=
    match depth with
    | O => None
    | S n =>
        let tinted (colorants : option (list bytes)) (alternate tint : val) (attributes : list val) :=
          bind colorants (fun colorants => bind (read_color_space n alternate) (fun alternate => bind (read_function decode resolved n tint) (fun tint =>
          Some (TintedSpace colorants alternate tint attributes)))) in
        match v with
        | VRef id 0 => match resolved id with Some (IObj _ _ v) => read_color_space n v | _ => None end
        | VArr (VName family :: r) =>
            if bytes_eqb family (lit "ICCBased") then
              match r with
              | [VRef id 0] =>
                  match resolved id with Some (IStream _ _ d _) => option_map (IccSpace d) (stream_content decode resolved id) | _ => None end
              | _ => None
              end
            else if bytes_eqb family (lit "Separation") then
              match r with name :: alternate :: tint :: attributes => tinted (option_map (fun n => [n]) (read_name name)) alternate tint attributes | _ => None end
            else if bytes_eqb family (lit "DeviceN") then
              match r with names :: alternate :: tint :: attributes => tinted (read_array read_name names) alternate tint attributes | _ => None end
            else Some (PlainSpace v)
        | VArr _ | VName _ => Some (PlainSpace v)
        | _ => None
        end
    end.
  (** Tables 78 to 84. *)
  Definition read_shading_at (n : nat) (v : val) : option read_shading :=
    bind (dict_or_stream decode resolved v) (fun x => let d := fst x in
    required (lit "ColorSpace") d (fun c => bind (read_color_space n c) (fun c =>
    bind (optional (lit "Function") d (read_function decode resolved n)) (fun f =>
    Some (mkShading d c f (snd x)))))).
  (** What a form XObject paints by itself: as if it were drawn under some name. *)
  Definition read_group (n : nat) (id : Z) : option read_paintings :=
    read_drawing decode resolved n (VDict [(lit "XObject", VDict [(lit "G", VRef id 0)])]) (lit "G") [].
  (** Table 144. *)
  Definition read_soft_mask (n : nat) (v : val) : option read_mask :=
    match v with
    | VName name => Some (MaskByName name)
    | VDict d =>
        required (lit "G") d (fun g => bind (read_id g) (fun id => bind (read_group n id) (fun l =>
        bind (optional (lit "TR") d (read_function decode resolved n)) (fun f => Some (MaskByGroup d l f)))))
    | _ => None
    end.
  (** Table 58. *)
  Definition read_gstate_at (n : nat) (v : val) : option read_gstate :=
    bind (dict_or_stream decode resolved v) (fun x => let d := fst x in
    bind (optional (lit "SMask") d (read_soft_mask n)) (fun m =>
    bind (optional (lit "BG") d (read_function decode resolved n)) (fun bg =>
    bind (optional (lit "UCR") d (read_function decode resolved n)) (fun ucr =>
    bind (optional (lit "TR") d (read_function decode resolved n)) (fun tr => Some (mkGstate d m bg ucr tr)))))).
  (** Tables 75, 76. *)
  Definition read_pattern_at (n : nat) (v : val) : option read_pattern :=
    bind (dict_or_stream decode resolved v) (fun x => let d := fst x in
    required (lit "PatternType") d (fun t => bind (read_whole t) (fun t =>
    if t =? 1 then
      bind (snd x) (fun content => required (lit "Resources") d (fun res =>
      bind (SpecContent.parse_content content) (fun ops =>
      option_map (Tiles d)
        (graphics_run (read_drawing decode resolved n res) (fun x => operation_effect (snd x)) (map (pair res) ops) (graphics_start [])))))
    else if t =? 2 then
      required (lit "Shading") d (fun s => bind (read_shading_at n s) (fun s =>
      bind (optional (lit "ExtGState") d (read_gstate_at n)) (fun g => Some (Shades d s g))))
    else None))).
  (** Everything named in a category of a resource dictionary. *)
  Definition named_in {A} (category : bytes) (f : val -> option A) (res : val) : option (list (bytes * A)) :=
    match res with
    | VDict d =>
        match lookup category d with
        | None => Some []
        | Some (VDict l) => all_of (map (fun e => option_map (pair (fst e)) (f (snd e))) l)
        | Some _ => None
        end
    | _ => None
    end.
  Record read_colors := mkColors { rc_spaces : list (bytes * read_space); rc_shadings : list (bytes * read_shading);
    rc_patterns : list (bytes * read_pattern); rc_gstates : list (bytes * read_gstate) }.
  Definition colors_of (n : nat) (res : val) : option read_colors :=
    bind (named_in (lit "ColorSpace") (read_color_space n) res) (fun a => bind (named_in (lit "Shading") (read_shading_at n) res) (fun b =>
    bind (named_in (lit "Pattern") (read_pattern_at n) res) (fun c => bind (named_in (lit "ExtGState") (read_gstate_at n) res) (fun d =>
    Some (mkColors a b c d))))).
End Reader.
(** For every page. *)
Definition read_page_colors decode (depth : nat) (file : bytes) : option (list read_colors) :=
  bind (document_views decode depth file) (fun views => all_of (map (fun v => colors_of decode (resolve decode file) depth (snd (fst v))) views)).

(** ** The program *)

Inductive space_asked :=
| AskPlain (c : cs)
| AskIcc (calls : list (or_stream Stream_call icc_call)) (profile : bytes)
| AskTinted (colorants : list bytes) (alternate : space_asked) (tint : function_asked) (attributes : list part).

(** [tint_exponential] and [tint_stitching] return the same writers as [exponential_function] and [stitching_function]. *)
Definition as_exponential (c : exp_call) : or_raw ExponentialFunction_call :=
  Typed match c with
  | ExDomain l => ExponentialFunction_domain l | ExRange l => ExponentialFunction_range l
  | ExC0 l => ExponentialFunction_c0 l | ExC1 l => ExponentialFunction_c1 l | ExN n => ExponentialFunction_n n
  end.
Definition as_stitching (c : stitch_call) : or_raw StitchingFunction_call :=
  Typed match c with
  | StDomain l => StitchingFunction_domain l | StRange l => StitchingFunction_range l
  | StFunctions l => StitchingFunction_functions l | StBounds l => StitchingFunction_bounds l | StEncode l => StitchingFunction_encode l
  end.
Definition tint_written decode (ops : list doc_op) (p : part) (f : function_asked) : Prop :=
  match p with
  | TintRef id => function_written decode ops (ById id) f
  | TintExponential l => function_written decode ops (InlineExponential (map as_exponential l)) f
  | TintStitching l => function_written decode ops (InlineStitching (map as_stitching l)) f
  | _ => False
  end.
Definition device_space (d : device_cs) : cs := match d with DevRgb => CsDeviceRgb | DevCmyk => CsDeviceCmyk | DevGray => CsDeviceGray end.
(** The method of [ColorSpace] that is called, and what it asks for. *)
Fixpoint space_written decode (ops : list doc_op) (c : cs) (s : space_asked) : Prop :=
  match s with
  | AskPlain c' => c' = c /\ match c with CsIccBased _ | CsSeparation _ _ | CsDeviceN _ _ => False | _ => True end
  | AskIcc calls profile => exists id data, c = CsIccBased id /\ In (DocTyped id (Ck_icc_profile data calls)) ops /\ stored_with decode calls data profile
  | AskTinted colorants alternate tint attributes =>
      exists a t,
        match c with
        | CsSeparation n calls => colorants = [n] /\ calls = a :: t :: attributes
        | CsDeviceN ns calls => colorants = ns /\ calls = a :: t :: attributes
        | _ => False
        end /\
        match a with
        | AlternateDevice d => space_written decode ops (device_space d) alternate
        | AlternateSpace c => space_written decode ops c alternate
        | AlternateRef id => exists c, In (DocTyped id (Ck_color_space c)) ops /\ space_written decode ops c alternate
        | _ => False
        end /\
        tint_written decode ops t tint
  end.

(** A function that may be given by its id. *)
Definition maybe_function decode (ops : list doc_op) (given : option Z -> Prop) (f : option function_asked) : Prop :=
  match f with None => given None | Some f => exists id, given (Some id) /\ function_written decode ops (ById id) f end.

Inductive shading_asked :=
| AskFunctionShading (calls : FunctionShading_calls) (space : space_asked) (f : option function_asked)
| AskStreamShading (calls : StreamShading_calls) (content : bytes) (space : space_asked) (f : option function_asked).
Definition function_shading_written decode (ops : list doc_op) (calls : FunctionShading_calls) (space : space_asked) (f : option function_asked) : Prop :=
  (exists c, called (lit "ColorSpace") <| FunctionShading_color_space c => c |> calls (Some c) /\ space_written decode ops c space) /\
  maybe_function decode ops (called (lit "Function") <| FunctionShading_function id => id |> calls) f.
Definition stream_shading_written decode (ops : list doc_op) (calls : StreamShading_calls) (space : space_asked) (f : option function_asked) : Prop :=
  (exists c, stream_called (lit "ColorSpace") (fun _ => []) <| StreamShading_color_space c => c |> calls (Some c) /\ space_written decode ops c space) /\
  maybe_function decode ops (stream_called (lit "Function") (fun _ => []) <| StreamShading_function id => id |> calls) f.
Definition shading_by_id decode (ops : list doc_op) (id : Z) (s : shading_asked) : Prop :=
  match s with
  | AskFunctionShading calls space f => In (DocTyped id (Ck_function_shading calls)) ops /\ function_shading_written decode ops calls space f
  | AskStreamShading calls content space f =>
      exists data, In (DocTyped id (Ck_stream_shading data calls)) ops /\ stored_with decode calls data content /\ stream_shading_written decode ops calls space f
  end.

Definition asked_paintings : Type := list (painted asked_op FormXObject_calls asked_image).
Inductive mask_asked :=
| AskMaskName (n : bytes)
| AskMaskGroup (calls : SoftMask_calls) (group : xobject) (painting : asked_paintings) (transfer : option function_asked).
Record gstate_asked := mkAskedGstate { ga_calls : ExtGraphicsState_calls; ga_mask : option mask_asked;
  ga_black : option function_asked; ga_undercolor : option function_asked; ga_transfer : option function_asked }.
Definition mask_given (calls : ExtGraphicsState_calls) (m : option (bytes + SoftMask_calls)) : Prop :=
  called (lit "SMask") (fun c => match c with ExtGraphicsState_soft_mask m => [inl (inr m)] | ExtGraphicsState_soft_mask_name n => [inl (inl n)] | _ => [] end) calls m.
Definition mask_written decode (ops : list doc_op) (calls : ExtGraphicsState_calls) (m : option mask_asked) : Prop :=
  match m with
  | None => mask_given calls None
  | Some (AskMaskName n) => mask_given calls (Some (inl n))
  | Some (AskMaskGroup m group painting transfer) =>
      mask_given calls (Some (inr m)) /\
      (exists id, called (lit "G") <| SoftMask_group id => id |> m (Some id) /\ drawing_written decode ops id group) /\
      ask_drawing group [] = Some painting /\
      maybe_function decode ops (called (lit "TR") <| SoftMask_transfer_function id => id |> m) transfer
  end.
Definition gstate_written decode (ops : list doc_op) (g : gstate_asked) : Prop :=
  mask_written decode ops (ga_calls g) (ga_mask g) /\
  maybe_function decode ops (called (lit "BG") <| ExtGraphicsState_black_generation id => id |> (ga_calls g)) (ga_black g) /\
  maybe_function decode ops (called (lit "UCR") <| ExtGraphicsState_undercolor_removal id => id |> (ga_calls g)) (ga_undercolor g) /\
  maybe_function decode ops (called (lit "TR") <| ExtGraphicsState_transfer id => id |> (ga_calls g)) (ga_transfer g).

Inductive pattern_asked :=
| AskTiles (calls : TilingPattern_calls) (tile : asked_paintings)
| AskShades (calls : ShadingPattern_calls) (s : shading_asked) (g : option gstate_asked).
Definition tiles_written decode (ops : list doc_op) (id : Z) (calls : TilingPattern_calls) (tile : asked_paintings) : Prop :=
  exists data pretty c res xs content,
    In (DocTyped id (Ck_tiling_pattern data calls)) ops /\
    stream_called (lit "Resources") (fun _ => []) <| TilingPattern_resources r => r |> calls (Some res) /\
    forallb (SpecContent.ccall_ok pretty) content = true /\
    ModelContent.content_run content (ModelContent.content_with_settings pretty) = Some c /\
    stored_with decode calls data (inner (ModelContent.content_finish c)) /\
    xobjects_named res xs /\ Forall (fun x => drawing_written decode ops (fst (snd x)) (snd (snd x))) xs /\
    asked_painting res xs content = Some tile.
Definition shading_given (calls : ShadingPattern_calls) (s : FunctionShading_calls + Z) : Prop :=
  called (lit "Shading") (fun c => match c with ShadingPattern_function_shading l => [inl (inl l)] | ShadingPattern_shading_ref id => [inl (inr id)] | _ => [] end) calls (Some s).
Definition shades_written decode (ops : list doc_op) (calls : ShadingPattern_calls) (s : shading_asked) (g : option gstate_asked) : Prop :=
  ((exists id, shading_given calls (inr id) /\ shading_by_id decode ops id s) \/
   match s with
   | AskFunctionShading l space f => shading_given calls (inl l) /\ function_shading_written decode ops l space f
   | AskStreamShading _ _ _ _ => False
   end) /\
  match g with
  | None => called (lit "ExtGState") <| ShadingPattern_ext_graphics l => l |> calls None
  | Some g => called (lit "ExtGState") <| ShadingPattern_ext_graphics l => l |> calls (Some (ga_calls g)) /\ gstate_written decode ops g
  end.

(** Resources are given by reference, or written in place. *)
Definition space_at decode (ops : list doc_op) (o : obj) (s : space_asked) : Prop :=
  exists c, space_written decode ops c s /\
    ((exists id, o = OPrim (PRef id) /\ In (DocTyped id (Ck_color_space c)) ops) \/ cs_obj c = Some o).
Definition shading_at decode (ops : list doc_op) (o : obj) (s : shading_asked) : Prop :=
  (exists id, o = OPrim (PRef id) /\ shading_by_id decode ops id s) \/
  match s with
  | AskFunctionShading calls space f => FunctionShading_obj calls = Some o /\ FunctionShading_ok calls = true /\ function_shading_written decode ops calls space f
  | AskStreamShading _ _ _ _ => False
  end.
Definition gstate_at decode (ops : list doc_op) (o : obj) (g : gstate_asked) : Prop :=
  gstate_written decode ops g /\
  ((exists id, o = OPrim (PRef id) /\ In (DocTyped id (Ck_ext_graphics (ga_calls g))) ops) \/
   (o = ExtGraphicsState_obj (ga_calls g) /\ ExtGraphicsState_ok (ga_calls g) = true)).
Definition pattern_at decode (ops : list doc_op) (o : obj) (p : pattern_asked) : Prop :=
  match p with
  | AskTiles calls tile => exists id, o = OPrim (PRef id) /\ tiles_written decode ops id calls tile
  | AskShades calls s g => shades_written decode ops calls s g /\
      ((exists id, o = OPrim (PRef id) /\ In (DocTyped id (Ck_shading_pattern calls)) ops) \/ (ShadingPattern_obj calls = Some o /\ ShadingPattern_ok calls = true))
  end.
(** One category of a resource dictionary. *)
Definition category_written {A} (given : option (list (bytes * obj)) -> Prop) (at_ : obj -> A -> Prop) (l : list (bytes * A)) : Prop :=
  (l = [] /\ given None) \/ exists es, given (Some es) /\ Forall2 (fun e x => fst e = fst x /\ at_ (snd e) (snd x)) es l.
Record colors_asked := mkAskedColors { ac_spaces : list (bytes * space_asked); ac_shadings : list (bytes * shading_asked);
  ac_patterns : list (bytes * pattern_asked); ac_gstates : list (bytes * gstate_asked) }.
Definition colors_written decode (ops : list doc_op) (res : Resources_calls) (a : colors_asked) : Prop :=
  category_written (called (lit "ColorSpace") <| Resources_color_spaces es => es |> res) (space_at decode ops) (ac_spaces a) /\
  category_written (called (lit "Shading") <| Resources_shadings es => es |> res) (shading_at decode ops) (ac_shadings a) /\
  category_written (called (lit "Pattern") <| Resources_patterns es => es |> res) (pattern_at decode ops) (ac_patterns a) /\
  category_written (called (lit "ExtGState") <| Resources_ext_g_states es => es |> res) (gstate_at decode ops) (ac_gstates a).

(** ** What is read is what was asked for *)

Inductive space_is : space_asked -> read_space -> Prop :=
| plain_is c v : cs_reads c v -> space_is (AskPlain c) (PlainSpace v)
| icc_is calls d profile : stream_dict_is (icc_doc calls) d -> space_is (AskIcc calls profile) (IccSpace d profile)
| tinted_is colorants a a' t t' l l' : space_is a a' -> function_is t t' -> Forall2 part_reads l l' ->
    space_is (AskTinted colorants a t l) (TintedSpace colorants a' t' l').
Inductive shading_is : shading_asked -> read_shading -> Prop :=
| function_shading_is calls s s' f f' d : FunctionShading_reads calls (VDict d) -> space_is s s' -> optionally function_is f f' ->
    shading_is (AskFunctionShading calls s f) (mkShading d s' f' None)
| stream_shading_is calls content s s' f f' d : stream_dict_is (StreamShading_reads calls) d -> space_is s s' -> optionally function_is f f' ->
    shading_is (AskStreamShading calls content s f) (mkShading d s' f' (Some content)).
Definition paintings_are : asked_paintings -> read_paintings -> Prop := Forall2 painted_is.
Inductive mask_is : mask_asked -> read_mask -> Prop :=
| mask_name_is n : mask_is (AskMaskName n) (MaskByName n)
| mask_group_is calls group l l' f f' d : SoftMask_reads calls (VDict d) -> paintings_are l l' -> optionally function_is f f' ->
    mask_is (AskMaskGroup calls group l f) (MaskByGroup d l' f').
Definition gstate_is (a : gstate_asked) (r : read_gstate) : Prop :=
  ExtGraphicsState_reads (ga_calls a) (VDict (gs_dict r)) /\ optionally mask_is (ga_mask a) (gs_mask r) /\
  optionally function_is (ga_black a) (gs_black r) /\ optionally function_is (ga_undercolor a) (gs_undercolor r) /\
  optionally function_is (ga_transfer a) (gs_transfer r).
Inductive pattern_is : pattern_asked -> read_pattern -> Prop :=
| tiles_are calls l l' d : stream_dict_is (TilingPattern_reads calls) d -> paintings_are l l' -> pattern_is (AskTiles calls l) (Tiles d l')
| shades_are calls s s' g g' d : ShadingPattern_reads calls (VDict d) -> shading_is s s' -> optionally gstate_is g g' ->
    pattern_is (AskShades calls s g) (Shades d s' g').
Definition named_are {A B} (P : A -> B -> Prop) : list (bytes * A) -> list (bytes * B) -> Prop := Forall2 (fun a b => fst a = fst b /\ P (snd a) (snd b)).
Definition colors_are (a : colors_asked) (r : read_colors) : Prop :=
  named_are space_is (ac_spaces a) (rc_spaces r) /\ named_are shading_is (ac_shadings a) (rc_shadings r) /\
  named_are pattern_is (ac_patterns a) (rc_patterns r) /\ named_are gstate_is (ac_gstates a) (rc_gstates r).
