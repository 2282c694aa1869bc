(** Specification of typed writers: streams and files: the entries of every method, from its signature and documentation,
    and the conditions on its arguments. *)

From Coq Require Import ZArith List Bool.
From Verif Require ModelContent ModelCmap.
From Verif Require Import Bytes ModelFloat ModelBuf ModelObject ModelColor ModelSmall ModelPdf ModelTw ModelEnums ModelRoles ModelTwArgs  ModelTwFiles SpecLex SpecObj SpecText SpecMeans SpecPdf SpecTyped SpecColor SpecSmall SpecTw SpecEnums SpecRoles SpecTwArgs.
Import ListNotations.
Local Open Scope Z_scope.

(** ** DecodeParms *)

(** Written by the constructor: nothing. *)
Definition DecodeParms_head : list entry_spec := [].
Definition DecodeParms_doc (c : DecodeParms_call) : list entry_spec :=
  match c with
  | DecodeParms_predictor predictor => [(lit "Predictor", is_Predictor predictor)]
  | DecodeParms_colors colors => [(lit "Colors", is_int colors)]
  | DecodeParms_bits_per_component bits => [(lit "BitsPerComponent", is_int bits)]
  | DecodeParms_columns columns => [(lit "Columns", is_int columns)]
  | DecodeParms_early_change early_change => [(lit "EarlyChange", is_int (if early_change then 1 else 0))]
  | DecodeParms_k k => [(lit "K", is_int k)]
  | DecodeParms_end_of_line eol => [(lit "EndOfLine", is_bool eol)]
  | DecodeParms_encoded_byte_align encoded_byte_align => [(lit "EncodedByteAlign", is_bool encoded_byte_align)]
  | DecodeParms_rows rows => [(lit "Rows", is_int rows)]
  | DecodeParms_end_of_block end_of_block => [(lit "EndOfBlock", is_bool end_of_block)]
  | DecodeParms_black_is_1 black_is_1 => [(lit "BlackIs1", is_bool black_is_1)]
  | DecodeParms_damaged_rows_before_error count => [(lit "DamagedRowsBeforeError", is_int count)]
  | DecodeParms_jbig2_globals globals => [(lit "JBIG2Globals", is_ref globals)]
  | DecodeParms_color_transform color_transform => [(lit "ColorTransform", is_int (if color_transform then 1 else 0))]
  | DecodeParms_crypt_type => [(lit "Type", is_name (lit "CryptFilterDecodeParms"))]
  | DecodeParms_name name => [(lit "Name", is_name name)]
  end.
Definition DecodeParms_call_ok (c : DecodeParms_call) : bool :=
  match c with
  | DecodeParms_predictor _ => true
  | DecodeParms_colors colors => in_i32 colors
  | DecodeParms_bits_per_component bits => in_i32 bits
  | DecodeParms_columns columns => in_i32 columns
  | DecodeParms_early_change _ => true
  | DecodeParms_k k => in_i32 k
  | DecodeParms_end_of_line _ => true
  | DecodeParms_encoded_byte_align _ => true
  | DecodeParms_rows rows => in_i32 rows
  | DecodeParms_end_of_block _ => true
  | DecodeParms_black_is_1 _ => true
  | DecodeParms_damaged_rows_before_error count => in_i32 count
  | DecodeParms_jbig2_globals globals => ref_ok globals
  | DecodeParms_color_transform _ => true
  | DecodeParms_crypt_type => true
  | DecodeParms_name name => name_ok name
  end.
(** The calls that do not panic. *)
Definition DecodeParms_call_allowed (c : DecodeParms_call) : Prop :=
  match c with
  | DecodeParms_predictor _ => True
  | DecodeParms_colors colors => 0 < colors
  | DecodeParms_bits_per_component bits => In bits [1; 2; 4; 8; 16]
  | DecodeParms_columns _ => True
  | DecodeParms_early_change _ => True
  | DecodeParms_k _ => True
  | DecodeParms_end_of_line _ => True
  | DecodeParms_encoded_byte_align _ => True
  | DecodeParms_rows _ => True
  | DecodeParms_end_of_block _ => True
  | DecodeParms_black_is_1 _ => True
  | DecodeParms_damaged_rows_before_error _ => True
  | DecodeParms_jbig2_globals _ => True
  | DecodeParms_color_transform _ => True
  | DecodeParms_crypt_type => True
  | DecodeParms_name _ => True
  end.
Definition DecodeParms_reads (cs : DecodeParms_calls) : val -> Prop := writer_reads DecodeParms_head DecodeParms_doc cs.
Definition DecodeParms_ok (cs : DecodeParms_calls) : bool := forallb (raw_ok DecodeParms_call_ok) cs.
Definition DecodeParms_allowed (cs : DecodeParms_calls) : Prop := Forall (raw_allowed DecodeParms_call_allowed) cs.

(** A sample: every method once. *)
Definition DecodeParms_sample : DecodeParms_calls := [
  Typed (DecodeParms_predictor Predictor_PngOptimum); Typed (DecodeParms_colors 3); Typed (DecodeParms_bits_per_component 8); Typed (DecodeParms_columns (-3)); Typed (DecodeParms_early_change true); Typed (DecodeParms_k (-3)); Typed (DecodeParms_end_of_line true); Typed (DecodeParms_encoded_byte_align true); Typed (DecodeParms_rows (-3)); Typed (DecodeParms_end_of_block true); Typed (DecodeParms_black_is_1 true); Typed (DecodeParms_damaged_rows_before_error (-3)); Typed (DecodeParms_jbig2_globals 7); Typed (DecodeParms_color_transform true); Typed DecodeParms_crypt_type; Typed (DecodeParms_name (lit "a b")); Raw (lit "Extra") (OArray [OPrim (PBool true)])].

(** ** Stream *)

(** Written by the constructor: nothing. *)
Definition Stream_head : list entry_spec := [].
Definition Stream_doc (c : Stream_call) : list entry_spec :=
  match c with
  | Stream_filter filter => [(lit "Filter", is_filter filter)]
  | Stream_decode_parms calls => [(lit "DecodeParms", DecodeParms_reads calls)]
  end.
Definition Stream_call_ok (c : Stream_call) : bool :=
  match c with
  | Stream_filter _ => true
  | Stream_decode_parms calls => DecodeParms_ok calls
  end.
(** The calls that do not panic. *)
Definition Stream_call_allowed (c : Stream_call) : Prop :=
  match c with
  | Stream_filter _ => True
  | Stream_decode_parms calls => DecodeParms_allowed calls
  end.
Definition Stream_reads (cs : Stream_calls) : list entry_spec := writer_doc Stream_head Stream_doc cs.
Definition Stream_ok (cs : Stream_calls) : bool := forallb (raw_ok Stream_call_ok) cs.
Definition Stream_allowed (cs : Stream_calls) : Prop := Forall (raw_allowed Stream_call_allowed) cs.

(** A sample: every method once. *)
Definition Stream_sample : Stream_calls := [
  Typed (Stream_filter FlateDecode); Typed (Stream_decode_parms DecodeParms_sample); Raw (lit "Extra") (OArray [OPrim (PBool true)])].

(** ** FileSpec *)

(** Written by the constructor. *)
Definition FileSpec_head : list entry_spec := [(lit "Type", is_name (lit "Filespec"))].
Definition FileSpec_doc (c : FileSpec_call) : list entry_spec :=
  match c with
  | FileSpec_file_system system => [(lit "FS", is_name system)]
  | FileSpec_path path => [(lit "F", is_str path)]
  | FileSpec_unic_file path => [(lit "UF", is_text path)]
  | FileSpec_volatile dont_cache => [(lit "V", is_bool dont_cache)]
  | FileSpec_description desc => [(lit "Desc", is_textlike desc)]
  | FileSpec_embedded_file id => [(lit "EF", is_dict [(lit "F", is_ref id)])]
  | FileSpec_embedded_file_with_unicode id => [(lit "EF", is_dict [(lit "F", is_ref id); (lit "UF", is_ref id)])]
  | FileSpec_association_kind kind => [(lit "AFRelationship", is_AssociationKind kind)]
  end.
Definition FileSpec_call_ok (c : FileSpec_call) : bool :=
  match c with
  | FileSpec_file_system system => name_ok system
  | FileSpec_path _ => true
  | FileSpec_unic_file path => text_ok path
  | FileSpec_volatile _ => true
  | FileSpec_description desc => textlike_ok desc
  | FileSpec_embedded_file id => ref_ok id
  | FileSpec_embedded_file_with_unicode id => ref_ok id
  | FileSpec_association_kind _ => true
  end.
Definition FileSpec_reads (cs : FileSpec_calls) : val -> Prop := writer_reads FileSpec_head FileSpec_doc cs.
Definition FileSpec_ok (cs : FileSpec_calls) : bool := forallb (raw_ok FileSpec_call_ok) cs.

(** A sample: every method once. *)
Definition FileSpec_sample : FileSpec_calls := [
  Typed (FileSpec_file_system (lit "a b")); Typed (FileSpec_path (lit "x(y")); Typed (FileSpec_unic_file [960; 65]); Typed (FileSpec_volatile true); Typed (FileSpec_description (TextPlain [97; 128512])); Typed (FileSpec_embedded_file 7); Typed (FileSpec_embedded_file_with_unicode 7); Typed (FileSpec_association_kind AssociationKind_Unspecified); Raw (lit "Extra") (OArray [OPrim (PBool true)])].

(** ** EmbeddingParams *)

(** Written by the constructor: nothing. *)
Definition EmbeddingParams_head : list entry_spec := [].
Definition EmbeddingParams_doc (c : EmbeddingParams_call) : list entry_spec :=
  match c with
  | EmbeddingParams_size size => [(lit "Size", is_int size)]
  | EmbeddingParams_creation_date date => [(lit "CreationDate", is_date_of date)]
  | EmbeddingParams_modification_date date => [(lit "ModDate", is_date_of date)]
  | EmbeddingParams_checksum checksum => [(lit "CheckSum", is_str checksum)]
  end.
Definition EmbeddingParams_call_ok (c : EmbeddingParams_call) : bool :=
  match c with
  | EmbeddingParams_size size => in_i32 size
  | EmbeddingParams_creation_date date => date_ok date
  | EmbeddingParams_modification_date date => date_ok date
  | EmbeddingParams_checksum _ => true
  end.
Definition EmbeddingParams_reads (cs : EmbeddingParams_calls) : val -> Prop := writer_reads EmbeddingParams_head EmbeddingParams_doc cs.
Definition EmbeddingParams_ok (cs : EmbeddingParams_calls) : bool := forallb (raw_ok EmbeddingParams_call_ok) cs.

(** A sample: every method once. *)
Definition EmbeddingParams_sample : EmbeddingParams_calls := [
  Typed (EmbeddingParams_size (-3)); Typed (EmbeddingParams_creation_date (date_new 2024)); Typed (EmbeddingParams_modification_date (date_new 2024)); Typed (EmbeddingParams_checksum (lit "x(y")); Raw (lit "Extra") (OArray [OPrim (PBool true)])].

(** ** EmbeddedFile *)

(** Written by the constructor. *)
Definition EmbeddedFile_head : list entry_spec := [(lit "Type", is_name (lit "EmbeddedFile"))].
Definition EmbeddedFile_doc (c : EmbeddedFile_call) : list entry_spec :=
  match c with
  | EmbeddedFile_subtype subtype => [(lit "Subtype", is_name subtype)]
  | EmbeddedFile_params calls => [(lit "Params", EmbeddingParams_reads calls)]
  end.
Definition EmbeddedFile_call_ok (c : EmbeddedFile_call) : bool :=
  match c with
  | EmbeddedFile_subtype subtype => name_ok subtype
  | EmbeddedFile_params calls => EmbeddingParams_ok calls
  end.
(** The calls that do not panic. *)
Definition EmbeddedFile_call_allowed (c : EmbeddedFile_call) : Prop :=
  match c with
  | EmbeddedFile_subtype _ => True
  | EmbeddedFile_params _ => True
  end.
Definition EmbeddedFile_reads (cs : EmbeddedFile_calls) : list entry_spec := EmbeddedFile_head ++ flat_map (stream_doc Stream_doc EmbeddedFile_doc) cs.
Definition EmbeddedFile_ok (cs : EmbeddedFile_calls) : bool := forallb (stream_ok Stream_call_ok EmbeddedFile_call_ok) cs.
Definition EmbeddedFile_allowed (cs : EmbeddedFile_calls) : Prop := Forall (stream_allowed Stream_call_allowed EmbeddedFile_call_allowed) cs.

(** A sample: every method once. *)
Definition EmbeddedFile_sample : EmbeddedFile_calls := [
  STyped (EmbeddedFile_subtype (lit "a b")); STyped (EmbeddedFile_params EmbeddingParams_sample); SStream (Stream_filter FlateDecode); SRaw (lit "Extra") (OPrim (PInt 5))].
