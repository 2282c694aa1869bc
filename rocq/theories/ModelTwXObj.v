(** Model of typed writers: XObjects, functions and metadata.  Generated by gen/gen_writers.py from the source text. *)

From Coq Require Import ZArith List Bool.
From Verif Require ModelContent ModelCmap.
From Verif Require Import Bytes ModelFloat ModelBuf ModelObject ModelColor ModelSmall ModelPdf ModelTw ModelEnums ModelRoles ModelTwArgs ModelTwFiles ModelTwGraphics ModelTwAnnot ModelTwForms ModelTwAttr.
Import ListNotations.
Local Open Scope Z_scope.

(** ** Reference (src/xobject.rs) *)

Inductive Reference_call :=
| Reference_file_spec (calls : FileSpec_calls)
| Reference_page_number (page : Z)
| Reference_page_label (label : textlike)
| Reference_id (id : bytes * bytes).
Definition Reference_entries (c : Reference_call) : list (bytes * obj) :=
  match c with
  | Reference_file_spec calls => [(lit "F", FileSpec_obj calls)]   (* src/xobject.rs:351-353 *)
  | Reference_page_number page => [(lit "Page", OPrim (PInt page))]   (* src/xobject.rs:358-361 *)
  | Reference_page_label label => [(lit "Page", OPrim (text_prim label))]   (* src/xobject.rs:365-368 *)
  | Reference_id id => [(lit "ID", arr_of (fun s => OPrim (PStr s)) [fst id; snd id])]   (* src/xobject.rs:371-374 *)
  end.
(** src/xobject.rs:346: no entries. *)
Definition Reference_header : list (bytes * obj) := [].
Definition Reference_calls : Type := list (or_raw Reference_call).
Definition Reference_obj (cs : Reference_calls) : obj := dict_writer Reference_header Reference_entries cs.

(** ** ImageXObject (src/xobject.rs) *)

Inductive ImageXObject_call :=
| ImageXObject_width (width : Z)
| ImageXObject_height (height : Z)
| ImageXObject_color_space (x : cs)
| ImageXObject_color_space_name (name : bytes)
| ImageXObject_bits_per_component (bits : Z)
| ImageXObject_intent (intent : ModelContent.rendering_intent)
| ImageXObject_image_mask (mask : bool)
| ImageXObject_color_mask (colors : list Z)
| ImageXObject_stencil_mask (mask : Z)
| ImageXObject_decode (decode : list f32)
| ImageXObject_interpolate (interpolate : bool)
| ImageXObject_alternates (alternates : list Z)
| ImageXObject_s_mask (x_object : Z)
| ImageXObject_s_mask_in_data (mode : SMaskInData)
| ImageXObject_struct_parent (key : Z)
| ImageXObject_matte (color : list f32)
| ImageXObject_metadata (id : Z)
| ImageXObject_associated_files (items : list FileSpec_calls).
Definition ImageXObject_entries (c : ImageXObject_call) : option (list (bytes * obj)) :=
  match c with
  | ImageXObject_width width => Some [(lit "Width", OPrim (PInt width))]   (* src/xobject.rs:21-24 *)
  | ImageXObject_height height => Some [(lit "Height", OPrim (PInt height))]   (* src/xobject.rs:27-30 *)
  | ImageXObject_color_space x => sub_entry (lit "ColorSpace") (cs_obj x)   (* src/xobject.rs:37-39 *)
  | ImageXObject_color_space_name name => Some [(lit "ColorSpace", OPrim (PName name))]   (* src/xobject.rs:46-49 *)
  | ImageXObject_bits_per_component bits => Some [(lit "BitsPerComponent", OPrim (PInt bits))]   (* src/xobject.rs:54-57 *)
  | ImageXObject_intent intent => Some [(lit "Intent", OPrim (PName (ModelContent.rendering_intent_name intent)))]   (* src/xobject.rs:60-63 *)
  | ImageXObject_image_mask mask => Some [(lit "ImageMask", OPrim (PBool mask))]   (* src/xobject.rs:68-71 *)
  | ImageXObject_color_mask colors => Some [(lit "Mask", ints colors)]   (* src/xobject.rs:76-79 *)
  | ImageXObject_stencil_mask mask => Some [(lit "Mask", OPrim (PRef mask))]   (* src/xobject.rs:83-86 *)
  | ImageXObject_decode decode => Some [(lit "Decode", reals decode)]   (* src/xobject.rs:91-94 *)
  | ImageXObject_interpolate interpolate => Some [(lit "Interpolate", OPrim (PBool interpolate))]   (* src/xobject.rs:99-102 *)
  | ImageXObject_alternates alternates => Some [(lit "Alternates", refs alternates)]   (* src/xobject.rs:109-112 *)
  | ImageXObject_s_mask x_object => Some [(lit "SMask", OPrim (PRef x_object))]   (* src/xobject.rs:119-122 *)
  | ImageXObject_s_mask_in_data mode => Some [(lit "SMaskInData", OPrim (PInt (SMaskInData_int mode)))]   (* src/xobject.rs:128-131 *)
  | ImageXObject_struct_parent key => Some [(lit "StructParent", OPrim (PInt key))]   (* src/xobject.rs:135-138 *)
  | ImageXObject_matte color => Some [(lit "Matte", reals color)]   (* src/xobject.rs:144-147 *)
  | ImageXObject_metadata id => Some [(lit "Metadata", OPrim (PRef id))]   (* src/xobject.rs:153-156 *)
  | ImageXObject_associated_files items => Some [(lit "AF", arr_of FileSpec_obj items)]   (* src/xobject.rs:160-162 *)
  end.
(** src/xobject.rs:14-18. *)
Definition ImageXObject_header : list (bytes * obj) := [(lit "Type", OPrim (PName (lit "XObject"))); (lit "Subtype", OPrim (PName (lit "Image")))].
Definition ImageXObject_calls : Type := list (or_stream Stream_call ImageXObject_call).
Definition ImageXObject_dict (cs : ImageXObject_calls) : option (list (bytes * obj)) := stream_writer Stream_entries ImageXObject_header ImageXObject_entries cs.

(** ** FormXObject (src/xobject.rs) *)

Inductive FormXObject_call :=
| FormXObject_bbox (bbox : rect)
| FormXObject_matrix (matrix : f6)
| FormXObject_resources (calls : Resources_calls)
| FormXObject_group (calls : Group_calls)
| FormXObject_struct_parent (key : Z)
| FormXObject_struct_parents (key : Z)
| FormXObject_reference (calls : Reference_calls)
| FormXObject_metadata (id : Z)
| FormXObject_last_modified (last_modified : date)
| FormXObject_associated_files (items : list FileSpec_calls).
Definition FormXObject_entries (c : FormXObject_call) : option (list (bytes * obj)) :=
  match c with
  | FormXObject_bbox bbox => Some [(lit "BBox", OPrim (PRect bbox))]   (* src/xobject.rs:211-214 *)
  | FormXObject_matrix matrix => Some [(lit "Matrix", reals (l6 matrix))]   (* src/xobject.rs:217-220 *)
  | FormXObject_resources calls => Some [(lit "Resources", Resources_obj calls)]   (* src/xobject.rs:225-227 *)
  | FormXObject_group calls => sub_entry (lit "Group") (Group_obj calls)   (* src/xobject.rs:231-233 *)
  | FormXObject_struct_parent key => Some [(lit "StructParent", OPrim (PInt key))]   (* src/xobject.rs:238-241 *)
  | FormXObject_struct_parents key => Some [(lit "StructParents", OPrim (PInt key))]   (* src/xobject.rs:246-249 *)
  | FormXObject_reference calls => Some [(lit "Ref", Reference_obj calls)]   (* src/xobject.rs:255-257 *)
  | FormXObject_metadata id => Some [(lit "Metadata", OPrim (PRef id))]   (* src/xobject.rs:263-266 *)
  | FormXObject_last_modified last_modified => Some [(lit "LastModified", OPrim (PDate last_modified))]   (* src/xobject.rs:269-272 *)
  | FormXObject_associated_files items => Some [(lit "AF", arr_of FileSpec_obj items)]   (* src/xobject.rs:276-278 *)
  end.
(** src/xobject.rs:202-206. *)
Definition FormXObject_header : list (bytes * obj) := [(lit "Type", OPrim (PName (lit "XObject"))); (lit "Subtype", OPrim (PName (lit "Form")))].
Definition FormXObject_calls : Type := list (or_stream Stream_call FormXObject_call).
Definition FormXObject_dict (cs : FormXObject_calls) : option (list (bytes * obj)) := stream_writer Stream_entries FormXObject_header FormXObject_entries cs.

(** ** SampledFunction (src/functions.rs) *)

Inductive SampledFunction_call :=
| SampledFunction_size (size : list Z)
| SampledFunction_bits_per_sample (bits : Z)
| SampledFunction_order (order : InterpolationOrder)
| SampledFunction_encode (encode : list f32)
| SampledFunction_decode (decode : list f32)
| SampledFunction_domain (domain : list f32)
| SampledFunction_range (range : list f32).
Definition SampledFunction_entries (c : SampledFunction_call) : option (list (bytes * obj)) :=
  match c with
  | SampledFunction_size size => Some [(lit "Size", ints size)]   (* src/functions.rs:65-68 *)
  | SampledFunction_bits_per_sample bits => Some [(lit "BitsPerSample", OPrim (PInt bits))]   (* src/functions.rs:73-76 *)
  | SampledFunction_order order => Some [(lit "Order", OPrim (PInt (InterpolationOrder_int order)))]   (* src/functions.rs:81-84 *)
  | SampledFunction_encode encode => Some [(lit "Encode", reals encode)]   (* src/functions.rs:89-92 *)
  | SampledFunction_decode decode => Some [(lit "Decode", reals decode)]   (* src/functions.rs:97-100 *)
  | SampledFunction_domain domain => Some [(lit "Domain", reals domain)]   (* src/functions.rs:27-45 *)
  | SampledFunction_range range => Some [(lit "Range", reals range)]   (* src/functions.rs:27-45 *)
  end.
(** src/functions.rs:55-58. *)
Definition SampledFunction_header : list (bytes * obj) := [(lit "FunctionType", OPrim (PInt (function_type_int FtSampled)))].
Definition SampledFunction_calls : Type := list (or_stream Stream_call SampledFunction_call).
Definition SampledFunction_dict (cs : SampledFunction_calls) : option (list (bytes * obj)) := stream_writer Stream_entries SampledFunction_header SampledFunction_entries cs.

(** ** ExponentialFunction (src/functions.rs) *)

Inductive ExponentialFunction_call :=
| ExponentialFunction_c0 (c0 : list f32)
| ExponentialFunction_c1 (c1 : list f32)
| ExponentialFunction_n (n : f32)
| ExponentialFunction_domain (domain : list f32)
| ExponentialFunction_range (range : list f32).
Definition ExponentialFunction_entries (c : ExponentialFunction_call) : list (bytes * obj) :=
  match c with
  | ExponentialFunction_c0 c0 => [(lit "C0", reals c0)]   (* src/functions.rs:148-151 *)
  | ExponentialFunction_c1 c1 => [(lit "C1", reals c1)]   (* src/functions.rs:156-159 *)
  | ExponentialFunction_n n => [(lit "N", OPrim (PReal n))]   (* src/functions.rs:164-167 *)
  | ExponentialFunction_domain domain => [(lit "Domain", reals domain)]   (* src/functions.rs:27-45 *)
  | ExponentialFunction_range range => [(lit "Range", reals range)]   (* src/functions.rs:27-45 *)
  end.
(** src/functions.rs:136-140. *)
Definition ExponentialFunction_header : list (bytes * obj) := [(lit "FunctionType", OPrim (PInt (function_type_int FtExponential)))].
Definition ExponentialFunction_calls : Type := list (or_raw ExponentialFunction_call).
Definition ExponentialFunction_obj (cs : ExponentialFunction_calls) : obj := dict_writer ExponentialFunction_header ExponentialFunction_entries cs.

(** ** StitchingFunction (src/functions.rs) *)

Inductive StitchingFunction_call :=
| StitchingFunction_functions (functions : list Z)
| StitchingFunction_bounds (bounds : list f32)
| StitchingFunction_encode (encode : list f32)
| StitchingFunction_domain (domain : list f32)
| StitchingFunction_range (range : list f32).
Definition StitchingFunction_entries (c : StitchingFunction_call) : list (bytes * obj) :=
  match c with
  | StitchingFunction_functions functions => [(lit "Functions", refs functions)]   (* src/functions.rs:195-198 *)
  | StitchingFunction_bounds bounds => [(lit "Bounds", reals bounds)]   (* src/functions.rs:204-207 *)
  | StitchingFunction_encode encode => [(lit "Encode", reals encode)]   (* src/functions.rs:213-216 *)
  | StitchingFunction_domain domain => [(lit "Domain", reals domain)]   (* src/functions.rs:27-45 *)
  | StitchingFunction_range range => [(lit "Range", reals range)]   (* src/functions.rs:27-45 *)
  end.
(** src/functions.rs:183-187. *)
Definition StitchingFunction_header : list (bytes * obj) := [(lit "FunctionType", OPrim (PInt (function_type_int FtStitching)))].
Definition StitchingFunction_calls : Type := list (or_raw StitchingFunction_call).
Definition StitchingFunction_obj (cs : StitchingFunction_calls) : obj := dict_writer StitchingFunction_header StitchingFunction_entries cs.

(** ** PostScriptFunction (src/functions.rs) *)

Inductive PostScriptFunction_call :=
| PostScriptFunction_domain (domain : list f32)
| PostScriptFunction_range (range : list f32).
Definition PostScriptFunction_entries (c : PostScriptFunction_call) : option (list (bytes * obj)) :=
  match c with
  | PostScriptFunction_domain domain => Some [(lit "Domain", reals domain)]   (* src/functions.rs:27-45 *)
  | PostScriptFunction_range range => Some [(lit "Range", reals range)]   (* src/functions.rs:27-45 *)
  end.
(** src/functions.rs:230-233. *)
Definition PostScriptFunction_header : list (bytes * obj) := [(lit "FunctionType", OPrim (PInt (function_type_int FtPostScript)))].
Definition PostScriptFunction_calls : Type := list (or_stream Stream_call PostScriptFunction_call).
Definition PostScriptFunction_dict (cs : PostScriptFunction_calls) : option (list (bytes * obj)) := stream_writer Stream_entries PostScriptFunction_header PostScriptFunction_entries cs.

(** ** Metadata (src/structure.rs) *)

Inductive Metadata_call :=.
Definition Metadata_entries (c : Metadata_call) : option (list (bytes * obj)) :=
  match c with
  end.
(** src/structure.rs:2381-2385. *)
Definition Metadata_header : list (bytes * obj) := [(lit "Type", OPrim (PName (lit "Metadata"))); (lit "Subtype", OPrim (PName (lit "XML")))].
Definition Metadata_calls : Type := list (or_stream Stream_call Metadata_call).
Definition Metadata_dict (cs : Metadata_calls) : option (list (bytes * obj)) := stream_writer Stream_entries Metadata_header Metadata_entries cs.
