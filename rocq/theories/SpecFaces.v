(** Specification: the details of fonts: their names, font descriptors with the descriptors for glyph classes, encodings with CMaps (ISO 32000-2, 9.6 to 9.8). *)

From Coq Require Import ZArith List Bool.
From Verif Require ModelCmap ModelContent SpecContent SpecForm.
From Verif Require Import Bytes ModelFloat ModelBuf ModelObject ModelChunk ModelColor ModelSmall ModelPdf ModelTw ModelEnums ModelRoles ModelTwArgs
  ModelTwFiles ModelTwGraphics ModelTwAnnot ModelTwForms ModelTwAttr ModelTwXObj ModelTwFonts ModelTwDoc ModelFontDesc ModelDoc
  SpecLex SpecObj SpecText SpecMeans SpecRenum SpecChunk SpecFile SpecPdf SpecTyped SpecColor SpecSmall SpecTw SpecEnums SpecRoles SpecTwArgs
  SpecTwFiles SpecTwGraphics SpecTwAnnot SpecTwForms SpecTwAttr SpecTwXObj SpecTwFonts SpecTwDoc SpecFontDesc SpecDoc SpecPages SpecExtract SpecNav SpecViews SpecTagged SpecPaint SpecFunctions SpecActions SpecPresent SpecColors SpecImages SpecAppear SpecAttrs SpecGlyphs SpecFields.
Import ListNotations.
Local Open Scope Z_scope.

(** ** What is read *)

(** Font descriptors (tables 120 and 122): programs and sets of CIDs are given by the content of their streams, the style by its twelve bytes. *)
Record descriptor_parts (N : Type) := mkDescriptorParts { dt_name : option bytes; dt_family : option bytes; dt_stretch : option FontStretch; dt_weight : option Z;
    dt_flags : option (list Z); dt_box : option (list N); dt_angle : option N; dt_ascent : option N; dt_descent : option N; dt_leading : option N; dt_cap : option N;
    dt_x : option N; dt_stem_v : option N; dt_stem_h : option N; dt_average : option N; dt_greatest : option N; dt_missing : option N; dt_program : option bytes;
    dt_program2 : option bytes; dt_program3 : option bytes; dt_chars : option bytes; dt_cids : option bytes; dt_style : option bytes }.
Arguments mkDescriptorParts {N}. Arguments dt_name {N}. Arguments dt_family {N}. Arguments dt_stretch {N}. Arguments dt_weight {N}. Arguments dt_flags {N}.
    Arguments dt_box {N}. Arguments dt_angle {N}. Arguments dt_ascent {N}. Arguments dt_descent {N}. Arguments dt_leading {N}. Arguments dt_cap {N}.
    Arguments dt_x {N}. Arguments dt_stem_v {N}. Arguments dt_stem_h {N}. Arguments dt_average {N}. Arguments dt_greatest {N}. Arguments dt_missing {N}.
    Arguments dt_program {N}. Arguments dt_program2 {N}. Arguments dt_program3 {N}. Arguments dt_chars {N}. Arguments dt_cids {N}. Arguments dt_style {N}.
(** A descriptor, with the descriptors that replace it for some classes of glyphs. *)
Inductive descriptor_tree (N : Type) := DescriptorTree (own : descriptor_parts N) (classes : option (list (bytes * descriptor_tree N))).
Arguments DescriptorTree {N}.
(** CMaps (table 118), Type 1 fonts (109), Type 3 fonts (110), CIDFonts (115). The CMap on which a CMap builds is given by name or by content. *)
Record cmap_parts := mkCmapParts { mp_name : option bytes; mp_info : option ModelCmap.system_info; mp_mode : option ModelCmap.wmode; mp_base : option glyph_map }.
Record simple_parts := mkSimpleParts { sp_name : option bytes; sp_base : option bytes }.
Record drawn_parts (N : Type) := mkDrawnParts { dp_name : option bytes; dp_box : option (list N); dp_matrix : option (list N) }.
Arguments mkDrawnParts {N}. Arguments dp_name {N}. Arguments dp_box {N}. Arguments dp_matrix {N}.
Record cid_parts := mkCidParts { cp_type : option CidFontType; cp_base : option bytes; cp_info : option ModelCmap.system_info }.
Inductive map_of := NamedEncoding (n : bytes) | MapEncoding (parts : cmap_parts) (content : bytes).
Inductive face (N : Type) :=
| Face1 (own : simple_parts) (d : option (descriptor_tree N))
| Face3 (own : drawn_parts N) (d : option (descriptor_tree N))
| Face0 (base : option bytes) (e : option map_of) (own : cid_parts) (d : option (descriptor_tree N)).
Arguments Face1 {N}. Arguments Face3 {N}. Arguments Face0 {N}.

(** ** The reader *)

Definition read_system_info (v : val) : option ModelCmap.system_info :=
  match v with
  | VDict d => required (lit "Registry") d (fun r => bind (read_string r) (fun r =>
      required (lit "Ordering") d (fun o => bind (read_string o) (fun o =>
      required (lit "Supplement") d (fun s => bind (read_int s) (fun s => Some (ModelCmap.mkSystemInfo r o s)))))))
  | _ => None
  end.
Section Reader.
  Variable decode : option val -> bytes -> option bytes.
  Variable resolved : Z -> option indirect.
  Definition read_data (v : val) : option bytes := bind (read_id v) (stream_content decode resolved).
  Definition read_style (v : val) : option bytes := bind (object_dict resolved v) (fun d => required (lit "Panose") d read_string).
  Definition read_used (v : val) : option glyph_map := match v with VName n => Some (NamedMap n) | _ => option_map TableMap (read_data v) end.
  Definition read_descriptor_parts (v : val) : option (descriptor_parts val) :=
    bind (object_dict resolved v) (fun d =>
    bind (optional (lit "FontName") d read_name) (fun x0 => bind (optional (lit "FontFamily") d read_string) (fun x1 =>
    bind (optional (lit "FontStretch") d (read_named FontStretch_table)) (fun x2 => bind (optional (lit "FontWeight") d read_int) (fun x3 =>
    bind (optional (lit "Flags") d flag_positions) (fun x4 => bind (optional (lit "FontBBox") d read_numbers) (fun x5 =>
    bind (optional (lit "ItalicAngle") d read_number) (fun x6 => bind (optional (lit "Ascent") d read_number) (fun x7 =>
    bind (optional (lit "Descent") d read_number) (fun x8 => bind (optional (lit "Leading") d read_number) (fun x9 =>
    bind (optional (lit "CapHeight") d read_number) (fun x10 => bind (optional (lit "XHeight") d read_number) (fun x11 =>
    bind (optional (lit "StemV") d read_number) (fun x12 => bind (optional (lit "StemH") d read_number) (fun x13 =>
    bind (optional (lit "AvgWidth") d read_number) (fun x14 => bind (optional (lit "MaxWidth") d read_number) (fun x15 =>
    bind (optional (lit "MissingWidth") d read_number) (fun x16 => bind (optional (lit "FontFile") d read_data) (fun x17 =>
    bind (optional (lit "FontFile2") d read_data) (fun x18 => bind (optional (lit "FontFile3") d read_data) (fun x19 =>
    bind (optional (lit "CharSet") d read_string) (fun x20 => bind (optional (lit "CIDSet") d read_data) (fun x21 =>
    bind (optional (lit "Style") d read_style) (fun x22 =>
    Some (mkDescriptorParts x0 x1 x2 x3 x4 x5 x6 x7 x8 x9 x10 x11 x12 x13 x14 x15 x16 x17 x18 x19 x20 x21 x22))))))))))))))))))))))))).
  Definition read_cmap_parts (v : val) : option cmap_parts :=
    bind (object_dict resolved v) (fun d =>
    bind (optional (lit "CMapName") d read_name) (fun x0 => bind (optional (lit "CIDSystemInfo") d read_system_info) (fun x1 =>
    bind (optional (lit "WMode") d (read_numbered WMode_table)) (fun x2 => bind (optional (lit "UseCMap") d read_used) (fun x3 =>
    Some (mkCmapParts x0 x1 x2 x3)))))).
  Definition read_simple_parts (v : val) : option simple_parts :=
    bind (object_dict resolved v) (fun d =>
    bind (optional (lit "Name") d read_name) (fun x0 => bind (optional (lit "BaseFont") d read_name) (fun x1 =>
    Some (mkSimpleParts x0 x1)))).
  Definition read_drawn_parts (v : val) : option (drawn_parts val) :=
    bind (object_dict resolved v) (fun d =>
    bind (optional (lit "Name") d read_name) (fun x0 => bind (optional (lit "FontBBox") d read_numbers) (fun x1 =>
    bind (optional (lit "FontMatrix") d read_numbers) (fun x2 =>
    Some (mkDrawnParts x0 x1 x2))))).
  Definition read_cid_parts (v : val) : option cid_parts :=
    bind (object_dict resolved v) (fun d =>
    bind (optional (lit "Subtype") d (read_named CidFontType_table)) (fun x0 => bind (optional (lit "BaseFont") d read_name) (fun x1 =>
    bind (optional (lit "CIDSystemInfo") d read_system_info) (fun x2 =>
    Some (mkCidParts x0 x1 x2))))).
  Fixpoint read_descriptor_tree (depth : nat) (v : val) : option (descriptor_tree val) :=
    match depth with
    | O => None
    | S n =>
        bind (read_descriptor_parts v) (fun own =>
        bind (object_dict resolved v) (fun d =>
        bind (optional (lit "FD") d (fun o => bind (object_dict resolved o) (fun cs =>
          SpecNav.all_of (map (fun e => option_map (pair (fst e)) (read_descriptor_tree n (snd e))) cs)))) (fun classes =>
        Some (DescriptorTree own classes))))
    end.
  Definition read_map_of (v : val) : option map_of :=
    match v with
    | VName n => Some (NamedEncoding n)
    | VRef id 0 =>
        match resolved id with
        | Some (IStream _ _ d _) => bind (read_cmap_parts (VDict d)) (fun parts => option_map (MapEncoding parts) (stream_content decode resolved id))
        | _ => None
        end
    | _ => None
    end.
  Definition read_face (depth : nat) (v : val) : option (face val) :=
    bind (object_dict resolved v) (fun d =>
    required (lit "Subtype") d (fun t => bind (read_name t) (fun type =>
    if bytes_eqb type (lit "Type0") then
      bind (optional (lit "BaseFont") d read_name) (fun base =>
      bind (optional (lit "Encoding") d read_map_of) (fun e =>
      required (lit "DescendantFonts") d (fun l =>
      match l with
      | VArr [v] =>
          bind (read_cid_parts v) (fun own =>
          bind (object_dict resolved v) (fun c =>
          bind (optional (lit "FontDescriptor") c (read_descriptor_tree depth)) (fun t =>
          Some (Face0 base e own t))))
      | _ => None
      end)))
    else
      bind (optional (lit "FontDescriptor") d (read_descriptor_tree depth)) (fun t =>
      if bytes_eqb type (lit "Type3") then option_map (fun own => Face3 own t) (read_drawn_parts v) else option_map (fun own => Face1 own t) (read_simple_parts v))))).
  Definition read_page_faces (depth : nat) (res : val) : option (list (bytes * face val)) :=
    bind (object_dict resolved res) (fun r =>
    match lookup (lit "Font") r with
    | None => Some []
    | Some v => bind (object_dict resolved v) (fun fonts => SpecNav.all_of (map (fun e => option_map (pair (fst e)) (read_face depth (snd e))) fonts))
    end).
End Reader.
(** The fonts of every page, with the names the content uses for them. *)
Definition read_faces decode (depth : nat) (file : bytes) : option (list (list (bytes * face val))) :=
  bind (document_views decode depth file) (fun pages =>
  SpecNav.all_of (map (fun p => read_page_faces decode (resolve decode file) depth (snd (fst p))) pages)).

(** ** The program *)

Definition rect_list (r : rect) (l : list f32) : Prop := l = [x1 r; y1 r; x2 r; y2 r].
Definition matrix_list (m : f6) (l : list f32) : Prop := l = in_order6 m.
(** Class, subclass, and the ten bytes of the PANOSE classification. *)
Definition style_list (s : Byte.byte * Byte.byte * list Byte.byte) (l : bytes) : Prop := let '(class, subclass, panose) := s in l = class :: subclass :: panose /\
    length panose = 10%nat.
Section Written.
  Variable decode : option val -> bytes -> option bytes.
  Variable ops : list doc_op.
  Definition map_stored (id : Z) (calls : Cmap_calls) (content : bytes) : Prop :=
    exists data, In (DocTyped id (Ck_cmap data calls)) ops /\ stored_with decode calls data content.
  Definition used_written (x : bytes + Z) (m : glyph_map) : Prop :=
    match x, m with
    | inl n, NamedMap n' => n' = n
    | inr id, TableMap content => exists calls, map_stored id calls content
    | _, _ => False
    end.
  Definition descriptor_parts_written (calls : list fd_call) (x : (descriptor_parts f32)) : Prop :=
    descriptor_called (lit "FontName") <| Fd_name x => x |> calls (dt_name x) /\
    descriptor_called (lit "FontFamily") <| Fd_family x => x |> calls (dt_family x) /\
    descriptor_called (lit "FontStretch") <| Fd_stretch x => x |> calls (dt_stretch x) /\
    descriptor_called (lit "FontWeight") <| Fd_weight x => x |> calls (dt_weight x) /\
    part_given (descriptor_called (lit "Flags") <| Fd_flags x => x |> calls) (fun l x => x = positions_of FontFlags_pos l) (dt_flags x) /\
    part_given (descriptor_called (lit "FontBBox") <| Fd_bbox x => x |> calls) rect_list (dt_box x) /\
    descriptor_called (lit "ItalicAngle") <| Fd_italic_angle x => x |> calls (dt_angle x) /\
    descriptor_called (lit "Ascent") <| Fd_ascent x => x |> calls (dt_ascent x) /\
    descriptor_called (lit "Descent") <| Fd_descent x => x |> calls (dt_descent x) /\
    descriptor_called (lit "Leading") <| Fd_leading x => x |> calls (dt_leading x) /\
    descriptor_called (lit "CapHeight") <| Fd_cap_height x => x |> calls (dt_cap x) /\
    descriptor_called (lit "XHeight") <| Fd_x_height x => x |> calls (dt_x x) /\
    descriptor_called (lit "StemV") <| Fd_stem_v x => x |> calls (dt_stem_v x) /\
    descriptor_called (lit "StemH") <| Fd_stem_h x => x |> calls (dt_stem_h x) /\
    descriptor_called (lit "AvgWidth") <| Fd_avg_width x => x |> calls (dt_average x) /\
    descriptor_called (lit "MaxWidth") <| Fd_max_width x => x |> calls (dt_greatest x) /\
    descriptor_called (lit "MissingWidth") <| Fd_missing_width x => x |> calls (dt_missing x) /\
    part_given (descriptor_called (lit "FontFile") <| Fd_font_file x => x |> calls) (data_written decode ops) (dt_program x) /\
    part_given (descriptor_called (lit "FontFile2") <| Fd_font_file2 x => x |> calls) (data_written decode ops) (dt_program2 x) /\
    part_given (descriptor_called (lit "FontFile3") <| Fd_font_file3 x => x |> calls) (data_written decode ops) (dt_program3 x) /\
    descriptor_called (lit "CharSet") <| Fd_char_set x => x |> calls (dt_chars x) /\
    part_given (descriptor_called (lit "CIDSet") <| Fd_cid_set x => x |> calls) (data_written decode ops) (dt_cids x) /\
    part_given (descriptor_called (lit "Style") <| Fd_style c s p => (c, s, p) |> calls) style_list (dt_style x).
  Definition cmap_parts_written (calls : Cmap_calls) (x : cmap_parts) : Prop :=
    stream_called (lit "CMapName") (fun _ => []) <| Cmap_name x => x |> calls (mp_name x) /\
    stream_called (lit "CIDSystemInfo") (fun _ => []) <| Cmap_system_info x => x |> calls (mp_info x) /\
    stream_called (lit "WMode") (fun _ => []) <| Cmap_writing_mode x => x |> calls (mp_mode x) /\
    part_given (stream_called (lit "UseCMap") (fun _ => []) (fun c => match c with Cmap_use_cmap_predefined x => [inl (inl x)] | Cmap_use_cmap_stream x => [inl (inr x)] | _ => [] end) calls) used_written (mp_base x).
  Definition simple_parts_written (calls : Type1Font_calls) (x : simple_parts) : Prop :=
    called (lit "Name") <| Type1Font_name x => x |> calls (sp_name x) /\
    called (lit "BaseFont") <| Type1Font_base_font x => x |> calls (sp_base x).
  Definition drawn_parts_written (calls : Type3Font_calls) (x : (drawn_parts f32)) : Prop :=
    called (lit "Name") <| Type3Font_name x => x |> calls (dp_name x) /\
    part_given (called (lit "FontBBox") <| Type3Font_bbox x => x |> calls) rect_list (dp_box x) /\
    part_given (called (lit "FontMatrix") <| Type3Font_matrix x => x |> calls) matrix_list (dp_matrix x).
  Definition cid_parts_written (calls : CidFont_calls) (x : cid_parts) : Prop :=
    called (lit "Subtype") <| CidFont_subtype x => x |> calls (cp_type x) /\
    called (lit "BaseFont") <| CidFont_base_font x => x |> calls (cp_base x) /\
    called (lit "CIDSystemInfo") <| CidFont_system_info x => x |> calls (cp_info x).
  (** The descriptor for a class of glyphs: written in place, or an object of its own. *)
  Definition class_given (written : list fd_call -> Prop) (name : bytes) (c : ov_call) : Prop :=
    match c with
    | Ov_custom_class n calls => n = name /\ written calls
    | Ov_cjk_class k calls => cjk_name k = name /\ written calls
    | Ov_custom_class_ref n id => n = name /\ exists calls, In (DocTyped id (Ck_font_descriptor calls)) ops /\ written calls
    | Ov_cjk_class_ref k id => cjk_name k = name /\ exists calls, In (DocTyped id (Ck_font_descriptor calls)) ops /\ written calls
    | Ov_raw _ _ => False
    end.
  Fixpoint descriptor_tree_written (t : descriptor_tree f32) (calls : list fd_call) : Prop :=
    match t with
    | DescriptorTree own classes =>
        descriptor_parts_written calls own /\
        match classes with
        | None => descriptor_called (lit "FD") <| Fd_override cs => cs |> calls None
        | Some l => exists cs, descriptor_called (lit "FD") <| Fd_override cs => cs |> calls (Some cs) /\
            (fix all (l : list (bytes * descriptor_tree f32)) (cs : list ov_call) {struct l} : Prop :=
               match l, cs with
               | [], [] => True
               | (n, t) :: l, c :: cs => class_given (descriptor_tree_written t) n c /\ all l cs
               | _, _ => False
               end) l cs
        end
    end.
  Definition descriptor_object (id : Z) (t : descriptor_tree f32) : Prop := exists calls, In (DocTyped id (Ck_font_descriptor calls)) ops /\
    descriptor_tree_written t calls.
  Definition encoding_object (x : bytes + Z) (e : map_of) : Prop :=
    match x, e with
    | inl n, NamedEncoding n' => n' = n
    | inr id, MapEncoding parts content => exists calls, map_stored id calls content /\ cmap_parts_written calls parts
    | _, _ => False
    end.
  (** The type of the font is what the writer itself writes: it is not given again. *)
  Definition face_written (id : Z) (f : face f32) : Prop :=
    match f with
    | Face1 own d => exists calls, In (DocTyped id (Ck_type1_font calls)) ops /\ called (lit "Subtype") no_method calls None /\ simple_parts_written calls own /\
        part_given (called (lit "FontDescriptor") <| Type1Font_font_descriptor id => id |> calls) descriptor_object d
    | Face3 own d => exists calls, In (DocTyped id (Ck_type3_font calls)) ops /\ called (lit "Subtype") no_method calls None /\ drawn_parts_written calls own /\
        part_given (called (lit "FontDescriptor") <| Type3Font_font_descriptor id => id |> calls) descriptor_object d
    | Face0 base e own d => exists calls cid ccalls, In (DocTyped id (Ck_type0_font calls)) ops /\ called (lit "Subtype") no_method calls None /\
        called (lit "BaseFont") <| Type0Font_base_font n => n |> calls base /\
        part_given (called (lit "Encoding") (fun c => match c with
          | Type0Font_encoding_predefined n => [inl (inl n)] | Type0Font_encoding_cmap id => [inl (inr id)] | _ => [] end) calls) encoding_object e /\
        called (lit "DescendantFonts") <| Type0Font_descendant_font id => id |> calls (Some cid) /\ In (DocTyped cid (Ck_cid_font ccalls)) ops /\
        cid_parts_written ccalls own /\ part_given (called (lit "FontDescriptor") <| CidFont_font_descriptor id => id |> ccalls) descriptor_object d
    end.
  Definition page_faces_written (page : page_asked) (l : list (bytes * (Z * face f32))) : Prop :=
    ((l = [] /\ fonts_given (pa_resources page) None) \/ fonts_given (pa_resources page) (Some (map (fun f => (fst f, fst (snd f))) l))) /\
    Forall (fun f => face_written (fst (snd f)) (snd (snd f))) l.
End Written.

(** ** What is read is what is asked for *)

Definition descriptor_parts_is (x : (descriptor_parts f32)) (r : (descriptor_parts val)) : Prop :=
  dt_name r = dt_name x /\ dt_family r = dt_family x /\ dt_stretch r = dt_stretch x /\ dt_weight r = dt_weight x /\ dt_flags r = dt_flags x /\
    optionally numbers_are (dt_box x) (dt_box r) /\ optionally is_real (dt_angle x) (dt_angle r) /\ optionally is_real (dt_ascent x) (dt_ascent r) /\
    optionally is_real (dt_descent x) (dt_descent r) /\ optionally is_real (dt_leading x) (dt_leading r) /\ optionally is_real (dt_cap x) (dt_cap r) /\
    optionally is_real (dt_x x) (dt_x r) /\ optionally is_real (dt_stem_v x) (dt_stem_v r) /\ optionally is_real (dt_stem_h x) (dt_stem_h r) /\
    optionally is_real (dt_average x) (dt_average r) /\ optionally is_real (dt_greatest x) (dt_greatest r) /\ optionally is_real (dt_missing x) (dt_missing r) /\
    dt_program r = dt_program x /\ dt_program2 r = dt_program2 x /\ dt_program3 r = dt_program3 x /\ dt_chars r = dt_chars x /\ dt_cids r = dt_cids x /\
    dt_style r = dt_style x.
Definition drawn_parts_is (x : (drawn_parts f32)) (r : (drawn_parts val)) : Prop :=
  dp_name r = dp_name x /\ optionally numbers_are (dp_box x) (dp_box r) /\ optionally numbers_are (dp_matrix x) (dp_matrix r).
Inductive tree_is : descriptor_tree f32 -> descriptor_tree val -> Prop :=
| tree_plain own own' : descriptor_parts_is own own' -> tree_is (DescriptorTree own None) (DescriptorTree own' None)
| tree_classes own own' l l' : descriptor_parts_is own own' -> Forall2 (fun a r => fst r = fst a /\ tree_is (snd a) (snd r)) l l' ->
    tree_is (DescriptorTree own (Some l)) (DescriptorTree own' (Some l')).
Definition face_is (a : face f32) (r : face val) : Prop :=
  match a, r with
  | Face1 own d, Face1 own' d' => own' = own /\ optionally tree_is d d'
  | Face3 own d, Face3 own' d' => drawn_parts_is own own' /\ optionally tree_is d d'
  | Face0 base e own d, Face0 base' e' own' d' => base' = base /\ e' = e /\ own' = own /\ optionally tree_is d d'
  | _, _ => False
  end.
Definition page_face_is (a : bytes * (Z * face f32)) (r : bytes * face val) : Prop := fst r = fst a /\ face_is (snd (snd a)) (snd r).
