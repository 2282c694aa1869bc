(** Specification of typed writers: XObjects, functions and metadata: the entries of every method, from its signature and documentation,
    and the conditions on its arguments. *)

From Coq Require Import ZArith List Bool.
From Verif Require ModelContent ModelCmap.
From Verif Require Import Bytes ModelFloat ModelBuf ModelObject ModelColor ModelSmall ModelPdf ModelTw ModelEnums ModelRoles ModelTwArgs ModelTwFiles ModelTwGraphics ModelTwAnnot ModelTwForms ModelTwAttr ModelTwXObj SpecLex SpecObj SpecText SpecMeans SpecPdf SpecTyped SpecColor SpecSmall SpecTw SpecEnums SpecRoles SpecTwArgs SpecTwFiles SpecTwGraphics SpecTwAnnot SpecTwForms SpecTwAttr.
Import ListNotations.
Local Open Scope Z_scope.

(** ** Reference *)

(** Written by the constructor: nothing. *)
Definition Reference_head : list entry_spec := [].
Definition Reference_doc (c : Reference_call) : list entry_spec :=
  match c with
  | Reference_file_spec calls => [(lit "F", FileSpec_reads calls)]
  | Reference_page_number page => [(lit "Page", is_int page)]
  | Reference_page_label label => [(lit "Page", is_textlike label)]
  | Reference_id id => [(lit "ID", is_array_of is_str [fst id; snd id])]
  end.
Definition Reference_call_ok (c : Reference_call) : bool :=
  match c with
  | Reference_file_spec calls => FileSpec_ok calls
  | Reference_page_number page => in_i32 page
  | Reference_page_label label => textlike_ok label
  | Reference_id _ => true
  end.
Definition Reference_reads (cs : Reference_calls) : val -> Prop := writer_reads Reference_head Reference_doc cs.
Definition Reference_ok (cs : Reference_calls) : bool := forallb (raw_ok Reference_call_ok) cs.

(** A sample: every method once. *)
Definition Reference_sample : Reference_calls := [
  Typed (Reference_file_spec FileSpec_sample); Typed (Reference_page_number (-3)); Typed (Reference_page_label (TextPlain [97; 128512])); Typed (Reference_id (lit "a", lit "b")); Raw (lit "Extra") (OArray [OPrim (PBool true)])].

(** ** ImageXObject *)

(** Written by the constructor. *)
Definition ImageXObject_head : list entry_spec := [(lit "Type", is_name (lit "XObject")); (lit "Subtype", is_name (lit "Image"))].
Definition ImageXObject_doc (c : ImageXObject_call) : list entry_spec :=
  match c with
  | ImageXObject_width width => [(lit "Width", is_int width)]
  | ImageXObject_height height => [(lit "Height", is_int height)]
  | ImageXObject_color_space x => [(lit "ColorSpace", cs_reads x)]
  | ImageXObject_color_space_name name => [(lit "ColorSpace", is_name name)]
  | ImageXObject_bits_per_component bits => [(lit "BitsPerComponent", is_int bits)]
  | ImageXObject_intent intent => [(lit "Intent", is_RenderingIntent intent)]
  | ImageXObject_image_mask mask => [(lit "ImageMask", is_bool mask)]
  | ImageXObject_color_mask colors => [(lit "Mask", is_array_of is_int colors)]
  | ImageXObject_stencil_mask mask => [(lit "Mask", is_ref mask)]
  | ImageXObject_decode decode => [(lit "Decode", is_reals decode)]
  | ImageXObject_interpolate interpolate => [(lit "Interpolate", is_bool interpolate)]
  | ImageXObject_alternates alternates => [(lit "Alternates", is_refs alternates)]
  | ImageXObject_s_mask x_object => [(lit "SMask", is_ref x_object)]
  | ImageXObject_s_mask_in_data mode => [(lit "SMaskInData", is_SMaskInData mode)]
  | ImageXObject_struct_parent key => [(lit "StructParent", is_int key)]
  | ImageXObject_matte color => [(lit "Matte", is_reals color)]
  | ImageXObject_metadata id => [(lit "Metadata", is_ref id)]
  | ImageXObject_associated_files items => [(lit "AF", is_array_of FileSpec_reads items)]
  end.
Definition ImageXObject_call_ok (c : ImageXObject_call) : bool :=
  match c with
  | ImageXObject_width width => in_i32 width
  | ImageXObject_height height => in_i32 height
  | ImageXObject_color_space x => cs_ok x
  | ImageXObject_color_space_name name => name_ok name
  | ImageXObject_bits_per_component bits => in_i32 bits
  | ImageXObject_intent _ => true
  | ImageXObject_image_mask _ => true
  | ImageXObject_color_mask colors => forallb in_i32 colors
  | ImageXObject_stencil_mask mask => ref_ok mask
  | ImageXObject_decode decode => forallb real_ok decode
  | ImageXObject_interpolate _ => true
  | ImageXObject_alternates alternates => forallb ref_ok alternates
  | ImageXObject_s_mask x_object => ref_ok x_object
  | ImageXObject_s_mask_in_data _ => true
  | ImageXObject_struct_parent key => in_i32 key
  | ImageXObject_matte color => forallb real_ok color
  | ImageXObject_metadata id => ref_ok id
  | ImageXObject_associated_files items => forallb FileSpec_ok items
  end.
(** The calls that do not panic. *)
Definition ImageXObject_call_allowed (c : ImageXObject_call) : Prop :=
  match c with
  | ImageXObject_width _ => True
  | ImageXObject_height _ => True
  | ImageXObject_color_space x => cs_allowed x
  | ImageXObject_color_space_name _ => True
  | ImageXObject_bits_per_component _ => True
  | ImageXObject_intent _ => True
  | ImageXObject_image_mask _ => True
  | ImageXObject_color_mask _ => True
  | ImageXObject_stencil_mask _ => True
  | ImageXObject_decode _ => True
  | ImageXObject_interpolate _ => True
  | ImageXObject_alternates _ => True
  | ImageXObject_s_mask _ => True
  | ImageXObject_s_mask_in_data _ => True
  | ImageXObject_struct_parent _ => True
  | ImageXObject_matte _ => True
  | ImageXObject_metadata _ => True
  | ImageXObject_associated_files _ => True
  end.
Definition ImageXObject_reads (cs : ImageXObject_calls) : list entry_spec := ImageXObject_head ++ flat_map (stream_doc Stream_doc ImageXObject_doc) cs.
Definition ImageXObject_ok (cs : ImageXObject_calls) : bool := forallb (stream_ok Stream_call_ok ImageXObject_call_ok) cs.
Definition ImageXObject_allowed (cs : ImageXObject_calls) : Prop := Forall (stream_allowed Stream_call_allowed ImageXObject_call_allowed) cs.

(** A sample: every method once. *)
Definition ImageXObject_sample : ImageXObject_calls := [
  STyped (ImageXObject_width (-3)); STyped (ImageXObject_height (-3)); STyped (ImageXObject_color_space (CsIccBased 5)); STyped (ImageXObject_color_space_name (lit "a b")); STyped (ImageXObject_bits_per_component (-3)); STyped (ImageXObject_intent ModelContent.Perceptual); STyped (ImageXObject_image_mask true); STyped (ImageXObject_color_mask [1; -2]); STyped (ImageXObject_stencil_mask 7); STyped (ImageXObject_decode [(FFin false 8388608 (-23)); f32_zero]); STyped (ImageXObject_interpolate true); STyped (ImageXObject_alternates [3; 4]); STyped (ImageXObject_s_mask 7); STyped (ImageXObject_s_mask_in_data SMaskInData_Preblended); STyped (ImageXObject_struct_parent (-3)); STyped (ImageXObject_matte [(FFin false 8388608 (-23)); f32_zero]); STyped (ImageXObject_metadata 7); STyped (ImageXObject_associated_files [FileSpec_sample; []]); SStream (Stream_filter FlateDecode); SRaw (lit "Extra") (OPrim (PInt 5))].

(** ** FormXObject *)

(** Written by the constructor. *)
Definition FormXObject_head : list entry_spec := [(lit "Type", is_name (lit "XObject")); (lit "Subtype", is_name (lit "Form"))].
Definition FormXObject_doc (c : FormXObject_call) : list entry_spec :=
  match c with
  | FormXObject_bbox bbox => [(lit "BBox", is_rect bbox)]
  | FormXObject_matrix matrix => [(lit "Matrix", is_reals (in_order6 matrix))]
  | FormXObject_resources calls => [(lit "Resources", Resources_reads calls)]
  | FormXObject_group calls => [(lit "Group", Group_reads calls)]
  | FormXObject_struct_parent key => [(lit "StructParent", is_int key)]
  | FormXObject_struct_parents key => [(lit "StructParents", is_int key)]
  | FormXObject_reference calls => [(lit "Ref", Reference_reads calls)]
  | FormXObject_metadata id => [(lit "Metadata", is_ref id)]
  | FormXObject_last_modified last_modified => [(lit "LastModified", is_date_of last_modified)]
  | FormXObject_associated_files items => [(lit "AF", is_array_of FileSpec_reads items)]
  end.
Definition FormXObject_call_ok (c : FormXObject_call) : bool :=
  match c with
  | FormXObject_bbox bbox => rect_ok bbox
  | FormXObject_matrix matrix => ok6 matrix
  | FormXObject_resources calls => Resources_ok calls
  | FormXObject_group calls => Group_ok calls
  | FormXObject_struct_parent key => in_i32 key
  | FormXObject_struct_parents key => in_i32 key
  | FormXObject_reference calls => Reference_ok calls
  | FormXObject_metadata id => ref_ok id
  | FormXObject_last_modified last_modified => date_ok last_modified
  | FormXObject_associated_files items => forallb FileSpec_ok items
  end.
(** The calls that do not panic. *)
Definition FormXObject_call_allowed (c : FormXObject_call) : Prop :=
  match c with
  | FormXObject_bbox _ => True
  | FormXObject_matrix _ => True
  | FormXObject_resources _ => True
  | FormXObject_group calls => Group_allowed calls
  | FormXObject_struct_parent _ => True
  | FormXObject_struct_parents _ => True
  | FormXObject_reference _ => True
  | FormXObject_metadata _ => True
  | FormXObject_last_modified _ => True
  | FormXObject_associated_files _ => True
  end.
Definition FormXObject_reads (cs : FormXObject_calls) : list entry_spec := FormXObject_head ++ flat_map (stream_doc Stream_doc FormXObject_doc) cs.
Definition FormXObject_ok (cs : FormXObject_calls) : bool := forallb (stream_ok Stream_call_ok FormXObject_call_ok) cs.
Definition FormXObject_allowed (cs : FormXObject_calls) : Prop := Forall (stream_allowed Stream_call_allowed FormXObject_call_allowed) cs.

(** A sample: every method once. *)
Definition FormXObject_sample : FormXObject_calls := [
  STyped (FormXObject_bbox (mkRect f32_zero f32_zero (FFin false 8388608 (-23)) (FFin false 8388608 (-23)))); STyped (FormXObject_matrix (((FFin false 8388608 (-23)), f32_zero, f32_zero), ((FFin false 8388608 (-23)), f32_zero, f32_zero))); STyped (FormXObject_resources Resources_sample); STyped (FormXObject_group Group_sample); STyped (FormXObject_struct_parent (-3)); STyped (FormXObject_struct_parents (-3)); STyped (FormXObject_reference Reference_sample); STyped (FormXObject_metadata 7); STyped (FormXObject_last_modified (date_new 2024)); STyped (FormXObject_associated_files [FileSpec_sample; []]); SStream (Stream_filter FlateDecode); SRaw (lit "Extra") (OPrim (PInt 5))].

(** ** SampledFunction *)

(** Written by the constructor. *)
Definition SampledFunction_head : list entry_spec := [(lit "FunctionType", is_int 0)].
Definition SampledFunction_doc (c : SampledFunction_call) : list entry_spec :=
  match c with
  | SampledFunction_size size => [(lit "Size", is_array_of is_int size)]
  | SampledFunction_bits_per_sample bits => [(lit "BitsPerSample", is_int bits)]
  | SampledFunction_order order => [(lit "Order", is_InterpolationOrder order)]
  | SampledFunction_encode encode => [(lit "Encode", is_reals encode)]
  | SampledFunction_decode decode => [(lit "Decode", is_reals decode)]
  | SampledFunction_domain domain => [(lit "Domain", is_reals domain)]
  | SampledFunction_range range => [(lit "Range", is_reals range)]
  end.
Definition SampledFunction_call_ok (c : SampledFunction_call) : bool :=
  match c with
  | SampledFunction_size size => forallb in_i32 size
  | SampledFunction_bits_per_sample bits => in_i32 bits
  | SampledFunction_order _ => true
  | SampledFunction_encode encode => forallb real_ok encode
  | SampledFunction_decode decode => forallb real_ok decode
  | SampledFunction_domain domain => forallb real_ok domain
  | SampledFunction_range range => forallb real_ok range
  end.
(** The calls that do not panic. *)
Definition SampledFunction_call_allowed (c : SampledFunction_call) : Prop :=
  match c with
  | SampledFunction_size _ => True
  | SampledFunction_bits_per_sample _ => True
  | SampledFunction_order _ => True
  | SampledFunction_encode _ => True
  | SampledFunction_decode _ => True
  | SampledFunction_domain _ => True
  | SampledFunction_range _ => True
  end.
Definition SampledFunction_reads (cs : SampledFunction_calls) : list entry_spec := SampledFunction_head ++ flat_map (stream_doc Stream_doc SampledFunction_doc) cs.
Definition SampledFunction_ok (cs : SampledFunction_calls) : bool := forallb (stream_ok Stream_call_ok SampledFunction_call_ok) cs.
Definition SampledFunction_allowed (cs : SampledFunction_calls) : Prop := Forall (stream_allowed Stream_call_allowed SampledFunction_call_allowed) cs.

(** A sample: every method once. *)
Definition SampledFunction_sample : SampledFunction_calls := [
  STyped (SampledFunction_size [1; -2]); STyped (SampledFunction_bits_per_sample (-3)); STyped (SampledFunction_order InterpolationOrder_Cubic); STyped (SampledFunction_encode [(FFin false 8388608 (-23)); f32_zero]); STyped (SampledFunction_decode [(FFin false 8388608 (-23)); f32_zero]); STyped (SampledFunction_domain [(FFin false 8388608 (-23)); f32_zero]); STyped (SampledFunction_range [(FFin false 8388608 (-23)); f32_zero]); SStream (Stream_filter FlateDecode); SRaw (lit "Extra") (OPrim (PInt 5))].

(** ** ExponentialFunction *)

(** Written by the constructor. *)
Definition ExponentialFunction_head : list entry_spec := [(lit "FunctionType", is_int 2)].
Definition ExponentialFunction_doc (c : ExponentialFunction_call) : list entry_spec :=
  match c with
  | ExponentialFunction_c0 c0 => [(lit "C0", is_reals c0)]
  | ExponentialFunction_c1 c1 => [(lit "C1", is_reals c1)]
  | ExponentialFunction_n n => [(lit "N", is_real n)]
  | ExponentialFunction_domain domain => [(lit "Domain", is_reals domain)]
  | ExponentialFunction_range range => [(lit "Range", is_reals range)]
  end.
Definition ExponentialFunction_call_ok (c : ExponentialFunction_call) : bool :=
  match c with
  | ExponentialFunction_c0 c0 => forallb real_ok c0
  | ExponentialFunction_c1 c1 => forallb real_ok c1
  | ExponentialFunction_n n => real_ok n
  | ExponentialFunction_domain domain => forallb real_ok domain
  | ExponentialFunction_range range => forallb real_ok range
  end.
Definition ExponentialFunction_reads (cs : ExponentialFunction_calls) : val -> Prop := writer_reads ExponentialFunction_head ExponentialFunction_doc cs.
Definition ExponentialFunction_ok (cs : ExponentialFunction_calls) : bool := forallb (raw_ok ExponentialFunction_call_ok) cs.

(** A sample: every method once. *)
Definition ExponentialFunction_sample : ExponentialFunction_calls := [
  Typed (ExponentialFunction_c0 [(FFin false 8388608 (-23)); f32_zero]); Typed (ExponentialFunction_c1 [(FFin false 8388608 (-23)); f32_zero]); Typed (ExponentialFunction_n (FFin false 8388608 (-23))); Typed (ExponentialFunction_domain [(FFin false 8388608 (-23)); f32_zero]); Typed (ExponentialFunction_range [(FFin false 8388608 (-23)); f32_zero]); Raw (lit "Extra") (OArray [OPrim (PBool true)])].

(** ** StitchingFunction *)

(** Written by the constructor. *)
Definition StitchingFunction_head : list entry_spec := [(lit "FunctionType", is_int 3)].
Definition StitchingFunction_doc (c : StitchingFunction_call) : list entry_spec :=
  match c with
  | StitchingFunction_functions functions => [(lit "Functions", is_refs functions)]
  | StitchingFunction_bounds bounds => [(lit "Bounds", is_reals bounds)]
  | StitchingFunction_encode encode => [(lit "Encode", is_reals encode)]
  | StitchingFunction_domain domain => [(lit "Domain", is_reals domain)]
  | StitchingFunction_range range => [(lit "Range", is_reals range)]
  end.
Definition StitchingFunction_call_ok (c : StitchingFunction_call) : bool :=
  match c with
  | StitchingFunction_functions functions => forallb ref_ok functions
  | StitchingFunction_bounds bounds => forallb real_ok bounds
  | StitchingFunction_encode encode => forallb real_ok encode
  | StitchingFunction_domain domain => forallb real_ok domain
  | StitchingFunction_range range => forallb real_ok range
  end.
Definition StitchingFunction_reads (cs : StitchingFunction_calls) : val -> Prop := writer_reads StitchingFunction_head StitchingFunction_doc cs.
Definition StitchingFunction_ok (cs : StitchingFunction_calls) : bool := forallb (raw_ok StitchingFunction_call_ok) cs.

(** A sample: every method once. *)
Definition StitchingFunction_sample : StitchingFunction_calls := [
  Typed (StitchingFunction_functions [3; 4]); Typed (StitchingFunction_bounds [(FFin false 8388608 (-23)); f32_zero]); Typed (StitchingFunction_encode [(FFin false 8388608 (-23)); f32_zero]); Typed (StitchingFunction_domain [(FFin false 8388608 (-23)); f32_zero]); Typed (StitchingFunction_range [(FFin false 8388608 (-23)); f32_zero]); Raw (lit "Extra") (OArray [OPrim (PBool true)])].

(** ** PostScriptFunction *)

(** Written by the constructor. *)
Definition PostScriptFunction_head : list entry_spec := [(lit "FunctionType", is_int 4)].
Definition PostScriptFunction_doc (c : PostScriptFunction_call) : list entry_spec :=
  match c with
  | PostScriptFunction_domain domain => [(lit "Domain", is_reals domain)]
  | PostScriptFunction_range range => [(lit "Range", is_reals range)]
  end.
Definition PostScriptFunction_call_ok (c : PostScriptFunction_call) : bool :=
  match c with
  | PostScriptFunction_domain domain => forallb real_ok domain
  | PostScriptFunction_range range => forallb real_ok range
  end.
(** The calls that do not panic. *)
Definition PostScriptFunction_call_allowed (c : PostScriptFunction_call) : Prop :=
  match c with
  | PostScriptFunction_domain _ => True
  | PostScriptFunction_range _ => True
  end.
Definition PostScriptFunction_reads (cs : PostScriptFunction_calls) : list entry_spec := PostScriptFunction_head ++ flat_map (stream_doc Stream_doc PostScriptFunction_doc) cs.
Definition PostScriptFunction_ok (cs : PostScriptFunction_calls) : bool := forallb (stream_ok Stream_call_ok PostScriptFunction_call_ok) cs.
Definition PostScriptFunction_allowed (cs : PostScriptFunction_calls) : Prop := Forall (stream_allowed Stream_call_allowed PostScriptFunction_call_allowed) cs.

(** A sample: every method once. *)
Definition PostScriptFunction_sample : PostScriptFunction_calls := [
  STyped (PostScriptFunction_domain [(FFin false 8388608 (-23)); f32_zero]); STyped (PostScriptFunction_range [(FFin false 8388608 (-23)); f32_zero]); SStream (Stream_filter FlateDecode); SRaw (lit "Extra") (OPrim (PInt 5))].

(** ** Metadata *)

(** Written by the constructor. *)
Definition Metadata_head : list entry_spec := [(lit "Type", is_name (lit "Metadata")); (lit "Subtype", is_name (lit "XML"))].
Definition Metadata_doc (c : Metadata_call) : list entry_spec :=
  match c with
  end.
Definition Metadata_call_ok (c : Metadata_call) : bool :=
  match c with

  end.
(** The calls that do not panic. *)
Definition Metadata_call_allowed (c : Metadata_call) : Prop :=
  match c with

  end.
Definition Metadata_reads (cs : Metadata_calls) : list entry_spec := Metadata_head ++ flat_map (stream_doc Stream_doc Metadata_doc) cs.
Definition Metadata_ok (cs : Metadata_calls) : bool := forallb (stream_ok Stream_call_ok Metadata_call_ok) cs.
Definition Metadata_allowed (cs : Metadata_calls) : Prop := Forall (stream_allowed Stream_call_allowed Metadata_call_allowed) cs.

(** A sample: every method once. *)
Definition Metadata_sample : Metadata_calls := [
  SStream (Stream_filter FlateDecode); SRaw (lit "Extra") (OPrim (PInt 5))].
