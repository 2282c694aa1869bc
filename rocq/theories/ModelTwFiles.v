(** Model of typed writers: streams and files.  Generated by gen/gen_writers.py from the source text. *)

From Coq Require Import ZArith List Bool.
From Verif Require ModelContent ModelCmap.
From Verif Require Import Bytes ModelFloat ModelBuf ModelObject ModelColor ModelSmall ModelPdf ModelTw ModelEnums ModelRoles ModelTwArgs.
Import ListNotations.
Local Open Scope Z_scope.

(** ** DecodeParms (src/object.rs) *)

Inductive DecodeParms_call :=
| DecodeParms_predictor (predictor : Predictor)
| DecodeParms_colors (colors : Z)
| DecodeParms_bits_per_component (bits : Z)
| DecodeParms_columns (columns : Z)
| DecodeParms_early_change (early_change : bool)
| DecodeParms_k (k : Z)
| DecodeParms_end_of_line (eol : bool)
| DecodeParms_encoded_byte_align (encoded_byte_align : bool)
| DecodeParms_rows (rows : Z)
| DecodeParms_end_of_block (end_of_block : bool)
| DecodeParms_black_is_1 (black_is_1 : bool)
| DecodeParms_damaged_rows_before_error (count : Z)
| DecodeParms_jbig2_globals (globals : Z)
| DecodeParms_color_transform (color_transform : bool)
| DecodeParms_crypt_type
| DecodeParms_name (name : bytes).
Definition DecodeParms_entries (c : DecodeParms_call) : option (list (bytes * obj)) :=
  match c with
  | DecodeParms_predictor predictor => Some [(lit "Predictor", OPrim (PInt (Predictor_int predictor)))]   (* src/object.rs:1230-1233 *)
  | DecodeParms_colors colors => if colors <=? 0 then None else Some [(lit "Colors", OPrim (PInt colors))]   (* src/object.rs:1239-1246 *)
  | DecodeParms_bits_per_component bits => if negb (existsb (Z.eqb bits) [1; 2; 4; 8; 16]) then None else Some [(lit "BitsPerComponent", OPrim (PInt bits))]   (* src/object.rs:1253-1260 *)
  | DecodeParms_columns columns => Some [(lit "Columns", OPrim (PInt columns))]   (* src/object.rs:1271-1274 *)
  | DecodeParms_early_change early_change => Some [(lit "EarlyChange", OPrim (PInt (if early_change then 1 else 0)))]   (* src/object.rs:1282-1285 *)
  | DecodeParms_k k => Some [(lit "K", OPrim (PInt k))]   (* src/object.rs:1293-1296 *)
  | DecodeParms_end_of_line eol => Some [(lit "EndOfLine", OPrim (PBool eol))]   (* src/object.rs:1302-1305 *)
  | DecodeParms_encoded_byte_align encoded_byte_align => Some [(lit "EncodedByteAlign", OPrim (PBool encoded_byte_align))]   (* src/object.rs:1311-1314 *)
  | DecodeParms_rows rows => Some [(lit "Rows", OPrim (PInt rows))]   (* src/object.rs:1319-1322 *)
  | DecodeParms_end_of_block end_of_block => Some [(lit "EndOfBlock", OPrim (PBool end_of_block))]   (* src/object.rs:1328-1331 *)
  | DecodeParms_black_is_1 black_is_1 => Some [(lit "BlackIs1", OPrim (PBool black_is_1))]   (* src/object.rs:1336-1339 *)
  | DecodeParms_damaged_rows_before_error count => Some [(lit "DamagedRowsBeforeError", OPrim (PInt count))]   (* src/object.rs:1345-1348 *)
  | DecodeParms_jbig2_globals globals => Some [(lit "JBIG2Globals", OPrim (PRef globals))]   (* src/object.rs:1356-1359 *)
  | DecodeParms_color_transform color_transform => Some [(lit "ColorTransform", OPrim (PInt (if color_transform then 1 else 0)))]   (* src/object.rs:1371-1374 *)
  | DecodeParms_crypt_type => Some [(lit "Type", OPrim (PName (lit "CryptFilterDecodeParms")))]   (* src/object.rs:1380-1383 *)
  | DecodeParms_name name => Some [(lit "Name", OPrim (PName name))]   (* src/object.rs:1389-1392 *)
  end.
(** src/object.rs:1223: no entries. *)
Definition DecodeParms_header : list (bytes * obj) := [].
Definition DecodeParms_calls : Type := list (or_raw DecodeParms_call).
Definition DecodeParms_obj (cs : DecodeParms_calls) : option obj := dict_writer_opt DecodeParms_header DecodeParms_entries cs.

(** ** Stream (src/object.rs:1107-1146) *)

Inductive Stream_call :=
| Stream_filter (filter : filter)
| Stream_decode_parms (calls : DecodeParms_calls).
Definition Stream_entries (c : Stream_call) : option (list (bytes * obj)) :=
  match c with
  | Stream_filter filter => Some [(lit "Filter", OPrim (PName (filter_name filter)))]   (* src/object.rs:1133-1136 *)
  | Stream_decode_parms calls => sub_entry (lit "DecodeParms") (DecodeParms_obj calls)   (* src/object.rs:1143-1145 *)
  end.
(** src/object.rs:1118-1130: the length is in [chunk_stream]: no entries. *)
Definition Stream_header : list (bytes * obj) := [].
Definition Stream_calls : Type := list (or_raw Stream_call).
Definition Stream_dict (cs : Stream_calls) : option (list (bytes * obj)) := writer_list_opt Stream_header Stream_entries cs.

(** ** FileSpec (src/files.rs) *)

Inductive FileSpec_call :=
| FileSpec_file_system (system : bytes)
| FileSpec_path (path : bytes)
| FileSpec_unic_file (path : list Z)
| FileSpec_volatile (dont_cache : bool)
| FileSpec_description (desc : textlike)
| FileSpec_embedded_file (id : Z)
| FileSpec_embedded_file_with_unicode (id : Z)
| FileSpec_association_kind (kind : AssociationKind).
Definition FileSpec_entries (c : FileSpec_call) : list (bytes * obj) :=
  match c with
  | FileSpec_file_system system => [(lit "FS", OPrim (PName system))]   (* src/files.rs:22-25 *)
  | FileSpec_path path => [(lit "F", OPrim (PStr path))]   (* src/files.rs:29-32 *)
  | FileSpec_unic_file path => [(lit "UF", OPrim (PText path))]   (* src/files.rs:36-39 *)
  | FileSpec_volatile dont_cache => [(lit "V", OPrim (PBool dont_cache))]   (* src/files.rs:42-45 *)
  | FileSpec_description desc => [(lit "Desc", OPrim (text_prim desc))]   (* src/files.rs:48-51 *)
  | FileSpec_embedded_file id => [(lit "EF", ODict [(lit "F", OPrim (PRef id))])]   (* src/files.rs:63-66 *)
  | FileSpec_embedded_file_with_unicode id => [(lit "EF", ODict [(lit "F", OPrim (PRef id)); (lit "UF", OPrim (PRef id))])]   (* src/files.rs:73-79 *)
  | FileSpec_association_kind kind => [(lit "AFRelationship", OPrim (PName (AssociationKind_name kind)))]   (* src/files.rs:83-86 *)
  end.
(** src/files.rs:12-16. *)
Definition FileSpec_header : list (bytes * obj) := [(lit "Type", OPrim (PName (lit "Filespec")))].
Definition FileSpec_calls : Type := list (or_raw FileSpec_call).
Definition FileSpec_obj (cs : FileSpec_calls) : obj := dict_writer FileSpec_header FileSpec_entries cs.

(** ** EmbeddingParams (src/files.rs) *)

Inductive EmbeddingParams_call :=
| EmbeddingParams_size (size : Z)
| EmbeddingParams_creation_date (date : date)
| EmbeddingParams_modification_date (date : date)
| EmbeddingParams_checksum (checksum : bytes).
Definition EmbeddingParams_entries (c : EmbeddingParams_call) : list (bytes * obj) :=
  match c with
  | EmbeddingParams_size size => [(lit "Size", OPrim (PInt size))]   (* src/files.rs:135-138 *)
  | EmbeddingParams_creation_date date => [(lit "CreationDate", OPrim (PDate date))]   (* src/files.rs:141-144 *)
  | EmbeddingParams_modification_date date => [(lit "ModDate", OPrim (PDate date))]   (* src/files.rs:147-150 *)
  | EmbeddingParams_checksum checksum => [(lit "CheckSum", OPrim (PStr checksum))]   (* src/files.rs:155-158 *)
  end.
(** src/files.rs:131: no entries. *)
Definition EmbeddingParams_header : list (bytes * obj) := [].
Definition EmbeddingParams_calls : Type := list (or_raw EmbeddingParams_call).
Definition EmbeddingParams_obj (cs : EmbeddingParams_calls) : obj := dict_writer EmbeddingParams_header EmbeddingParams_entries cs.

(** ** EmbeddedFile (src/files.rs) *)

Inductive EmbeddedFile_call :=
| EmbeddedFile_subtype (subtype : bytes)
| EmbeddedFile_params (calls : EmbeddingParams_calls).
Definition EmbeddedFile_entries (c : EmbeddedFile_call) : option (list (bytes * obj)) :=
  match c with
  | EmbeddedFile_subtype subtype => Some [(lit "Subtype", OPrim (PName subtype))]   (* src/files.rs:111-114 *)
  | EmbeddedFile_params calls => Some [(lit "Params", EmbeddingParams_obj calls)]   (* src/files.rs:117-119 *)
  end.
(** src/files.rs:100-103. *)
Definition EmbeddedFile_header : list (bytes * obj) := [(lit "Type", OPrim (PName (lit "EmbeddedFile")))].
Definition EmbeddedFile_calls : Type := list (or_stream Stream_call EmbeddedFile_call).
Definition EmbeddedFile_dict (cs : EmbeddedFile_calls) : option (list (bytes * obj)) := stream_writer Stream_entries EmbeddedFile_header EmbeddedFile_entries cs.
