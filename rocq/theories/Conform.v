(** The unit tests of /repo, replayed on the model.  These are tests of the model (that it does what the code does where the
    code's authors wrote down what it does), not proofs of properties.  Written by gen/conform.py. *)

From Coq Require Import ZArith List Bool.
From Verif Require ModelContent.
From Verif Require Import Bytes ModelFloat ModelBuf ModelObject ModelRenumber ModelChunk ModelColor ModelSmall ModelPdf ModelTw ModelEnums ModelRoles ModelTwArgs
  ModelTwFiles ModelTwGraphics ModelTwAnnot ModelTwForms ModelTwAttr ModelTwXObj ModelTwFonts ModelTwDoc ModelFontDesc ModelDoc ModelPart ModelPs SpecObj SpecChunk SpecPages.
Import ListNotations.
Local Open Scope Z_scope.

(** src/lib.rs:623-650 [slice_obj]: the text of an object without [1 0 obj] and [endobj]. *)
Definition obj_text (pretty : bool) (o : obj) : bytes :=
  let c := chunk_bytes (chunk_object 1 o (chunk_with_settings pretty)) in
  firstn (length c - 8 - (if pretty then 9 else 8)) (skipn 8 c).
Definition finished (ops : list doc_op) : option bytes := match doc_run ops pdf_new with Some p => finish p | None => None end.
Definition finished_stream (id : Z) (ops : list doc_op) : option bytes :=
  match doc_run ops pdf_new with Some p => finish_with_xref_stream p id | None => None end.
Definition finished_filter (id : Z) (f : bytes -> bytes * xref_filter) (ops : list doc_op) : option bytes :=
  match doc_run ops pdf_new with Some p => finish_with_xref_stream_and_filter p id f | None => None end.
Definition chunk_of (id : Z) (c : chunk_call) : option hist :=
  match chunk_call_body c with Some (BObj o) => Some (HObject (HNew true) id o) | _ => None end.
Definition content_text (pretty : bool) (calls : list ModelContent.ccall) : option bytes :=
  option_map (fun c => inner (ModelContent.content_finish c)) (ModelContent.content_run calls (ModelContent.content_with_settings pretty)).
Definition content_limits (pretty : bool) (calls : list ModelContent.ccall) : option limits :=
  option_map (fun c => lims (ModelContent.content_finish c)) (ModelContent.content_run calls (ModelContent.content_with_settings pretty)).
Fixpoint merge_all_from (l : limits) (ls : list (option limits)) : option limits :=
  match ls with [] => Some l | Some o :: r => merge_all_from (merge l o) r | None :: _ => None end.
Definition merge_all : list (option limits) -> option limits := merge_all_from limits0.

(** src/object.rs:1617-1658 [test_primitive_objects] *)
Example test_primitive_objects_1 : obj_text true (OPrim (PBool true)) = (lit "true").
Proof. vm_compute. reflexivity. Qed.

(** src/object.rs:1617-1658 [test_primitive_objects] *)
Example test_primitive_objects_2 : obj_text true (OPrim (PBool false)) = (lit "false").
Proof. vm_compute. reflexivity. Qed.

(** src/object.rs:1617-1658 [test_primitive_objects] *)
Example test_primitive_objects_3 : obj_text true (OPrim (PInt 78)) = (lit "78").
Proof. vm_compute. reflexivity. Qed.

(** src/object.rs:1617-1658 [test_primitive_objects] *)
Example test_primitive_objects_4 : obj_text true (OPrim (PReal (f32_of_bits 1082591805))) = (lit "4.22").
Proof. vm_compute. reflexivity. Qed.

(** src/object.rs:1617-1658 [test_primitive_objects] *)
Example test_primitive_objects_5 : obj_text true (OPrim (PReal (f32_of_bits 872301335))) = (lit "0.0000001184").
Proof. vm_compute. reflexivity. Qed.

(** src/object.rs:1617-1658 [test_primitive_objects] *)
Example test_primitive_objects_6 : obj_text true (OPrim (PReal (f32_of_bits 1444465548))) = (lit "42000000000000").
Proof. vm_compute. reflexivity. Qed.

(** src/object.rs:1617-1658 [test_primitive_objects] *)
Example test_primitive_objects_7 : obj_text true (OPrim (PRef 7)) = (lit "7 0 R").
Proof. vm_compute. reflexivity. Qed.

(** src/object.rs:1617-1658 [test_primitive_objects] *)
Example test_primitive_objects_8 : obj_text true (OPrim (PNull)) = (lit "null").
Proof. vm_compute. reflexivity. Qed.

(** src/object.rs:1617-1658 [test_primitive_objects] *)
Example test_primitive_objects_9 : obj_text true (OPrim (PStr (lit "Hello, World!"))) = (lit "(Hello, World!)").
Proof. vm_compute. reflexivity. Qed.

(** src/object.rs:1617-1658 [test_primitive_objects] *)
Example test_primitive_objects_10 : obj_text true (OPrim (PStr (lit "()"))) = (lit "(())").
Proof. vm_compute. reflexivity. Qed.

(** src/object.rs:1617-1658 [test_primitive_objects] *)
Example test_primitive_objects_11 : obj_text true (OPrim (PStr (lit ")()"))) = (lit "(\)\(\))").
Proof. vm_compute. reflexivity. Qed.

(** src/object.rs:1617-1658 [test_primitive_objects] *)
Example test_primitive_objects_12 : obj_text true (OPrim (PStr (lit "()(())"))) = (lit "(()(()))").
Proof. vm_compute. reflexivity. Qed.

(** src/object.rs:1617-1658 [test_primitive_objects] *)
Example test_primitive_objects_13 : obj_text true (OPrim (PStr (lit "(()))"))) = (lit "(\(\(\)\)\))").
Proof. vm_compute. reflexivity. Qed.

(** src/object.rs:1617-1658 [test_primitive_objects] *)
Example test_primitive_objects_14 : obj_text true (OPrim (PStr (lit "\"))) = (lit "(\\)").
Proof. vm_compute. reflexivity. Qed.

(** src/object.rs:1617-1658 [test_primitive_objects] *)
Example test_primitive_objects_15 : obj_text true (OPrim (PStr ([x0a; x09] ++ lit "a"))) = (lit "(\n\ta)").
Proof. vm_compute. reflexivity. Qed.

(** src/object.rs:1617-1658 [test_primitive_objects] *)
Example test_primitive_objects_16 : obj_text true (OPrim (PStr (lit "\n"))) = (lit "(\\n)").
Proof. vm_compute. reflexivity. Qed.

(** src/object.rs:1617-1658 [test_primitive_objects] *)
Example test_primitive_objects_17 : obj_text true (OPrim (PStr (lit "a" ++ [x14] ++ lit "b"))) = (lit "(a\024b)").
Proof. vm_compute. reflexivity. Qed.

(** src/object.rs:1617-1658 [test_primitive_objects] *)
Example test_primitive_objects_18 : obj_text true (OPrim (PStr ([xff; xaa]))) = (lit "<FFAA>").
Proof. vm_compute. reflexivity. Qed.

(** src/object.rs:1617-1658 [test_primitive_objects] *)
Example test_primitive_objects_19 : obj_text true (OPrim (PStr ([x0a; x7f; x1f]))) = (lit "(\n\177\037)").
Proof. vm_compute. reflexivity. Qed.

(** src/object.rs:1617-1658 [test_primitive_objects] *)
Example test_primitive_objects_20 : obj_text true (OPrim (PText [72; 97; 108; 108; 111])) = (lit "(Hallo)").
Proof. vm_compute. reflexivity. Qed.

(** src/object.rs:1617-1658 [test_primitive_objects] *)
Example test_primitive_objects_21 : obj_text true (OPrim (PText [128512; 33])) = (lit "<FEFFD83DDE000021>").
Proof. vm_compute. reflexivity. Qed.

(** src/object.rs:1617-1658 [test_primitive_objects] *)
Example test_primitive_objects_22 : obj_text true (OPrim (PName (lit "Filter"))) = (lit "/Filter").
Proof. vm_compute. reflexivity. Qed.

(** src/object.rs:1617-1658 [test_primitive_objects] *)
Example test_primitive_objects_23 : obj_text true (OPrim (PName (lit "A B"))) = (lit "/A#20B").
Proof. vm_compute. reflexivity. Qed.

(** src/object.rs:1617-1658 [test_primitive_objects] *)
Example test_primitive_objects_24 : obj_text true (OPrim (PName (lit "~+c"))) = (lit "/~+c").
Proof. vm_compute. reflexivity. Qed.

(** src/object.rs:1617-1658 [test_primitive_objects] *)
Example test_primitive_objects_25 : obj_text true (OPrim (PName (lit "/A-B"))) = (lit "/#2FA-B").
Proof. vm_compute. reflexivity. Qed.

(** src/object.rs:1617-1658 [test_primitive_objects] *)
Example test_primitive_objects_26 : obj_text true (OPrim (PName (lit "<A>"))) = (lit "/#3CA#3E").
Proof. vm_compute. reflexivity. Qed.

(** src/object.rs:1617-1658 [test_primitive_objects] *)
Example test_primitive_objects_27 : obj_text true (OPrim (PName (lit "#"))) = (lit "/#23").
Proof. vm_compute. reflexivity. Qed.

(** src/object.rs:1617-1658 [test_primitive_objects] *)
Example test_primitive_objects_28 : obj_text true (OPrim (PName ([x0a]))) = (lit "/#0A").
Proof. vm_compute. reflexivity. Qed.

(** src/object.rs:1661-1675 [test_dates] *)
Example test_dates_1 : obj_text true (OPrim (PDate (fold_left date_apply [] (date_new 2021)))) = (lit "(D:2021)").
Proof. vm_compute. reflexivity. Qed.

(** src/object.rs:1661-1675 [test_dates] *)
Example test_dates_2 : obj_text true (OPrim (PDate (fold_left date_apply [DMonth 30] (date_new 2021)))) = (lit "(D:202112)").
Proof. vm_compute. reflexivity. Qed.

(** src/object.rs:1661-1675 [test_dates] *)
Example test_dates_3 : obj_text true (OPrim (PDate (fold_left date_apply [DMonth 3; DDay 17; DHour 1; DMinute 2; DSecond 3] (date_new 2020)))) = (lit "(D:20200317010203)").
Proof. vm_compute. reflexivity. Qed.

(** src/object.rs:1661-1675 [test_dates] *)
Example test_dates_4 : obj_text true (OPrim (PDate (fold_left date_apply [DMonth 3; DDay 17; DHour 1; DMinute 2; DSecond 3; DOffHour 0] (date_new 2020)))) = (lit "(D:20200317010203Z)").
Proof. vm_compute. reflexivity. Qed.

(** src/object.rs:1661-1675 [test_dates] *)
Example test_dates_5 : obj_text true (OPrim (PDate (fold_left date_apply [DMonth 3; DDay 17; DHour 1; DMinute 2; DSecond 3; DOffHour 4] (date_new 2020)))) = (lit "(D:20200317010203+04'00)").
Proof. vm_compute. reflexivity. Qed.

(** src/object.rs:1661-1675 [test_dates] *)
Example test_dates_6 : obj_text true (OPrim (PDate (fold_left date_apply [DMonth 3; DDay 17; DHour 1; DMinute 2; DSecond 3; DOffHour (-17); DOffMinute 10] (date_new 2020)))) = (lit "(D:20200317010203-17'10)").
Proof. vm_compute. reflexivity. Qed.

(** src/object.rs:1678-1690 [test_arrays] *)
Example test_arrays_1 : obj_text true (OArray []) = (lit "[]").
Proof. vm_compute. reflexivity. Qed.

(** src/object.rs:1678-1690 [test_arrays] *)
Example test_arrays_2 : obj_text true (OArray [OPrim (PInt 12); OPrim PNull]) = (lit "[12 null]").
Proof. vm_compute. reflexivity. Qed.

(** src/object.rs:1678-1690 [test_arrays] *)
Example test_arrays_3 : obj_text true (OArray [OPrim (PInt 1); OPrim (PInt 2); OPrim (PInt 3)]) = (lit "[1 2 3]").
Proof. vm_compute. reflexivity. Qed.

(** src/object.rs:1678-1690 [test_arrays] *)
Example test_arrays_4 : obj_text true (OArray [OArray [OPrim (PInt 1); OPrim (PInt 2)]; OPrim (PInt 3)]) = (lit "[[1 2] 3]").
Proof. vm_compute. reflexivity. Qed.

(** src/object.rs:1693-1705 [test_dicts] *)
Example test_dicts_1 : obj_text true (ODict []) = (lit "<<>>").
Proof. vm_compute. reflexivity. Qed.

(** src/object.rs:1693-1705 [test_dicts] *)
Example test_dicts_2 : obj_text true (ODict [(lit "Quality", OPrim (PName (lit "Good")))]) = (lit "<<" ++ [x0a] ++ lit "  /Quality /Good" ++ [x0a] ++ lit ">>").
Proof. vm_compute. reflexivity. Qed.

(** src/object.rs:1693-1705 [test_dicts] *)
Example test_dicts_3 : obj_text true (ODict [(lit "A", OPrim (PInt 1)); (lit "B", OPrim (PInt 2))]) = (lit "<<" ++ [x0a] ++ lit "  /A 1" ++ [x0a] ++ lit "  /B 2" ++ [x0a] ++ lit ">>").
Proof. vm_compute. reflexivity. Qed.

(** src/object.rs:1708-1729 [test_streams] *)
Example test_streams : finished [DocTyped 1 (Ck_stream (lit "Hi there!") [Typed (Stream_filter CryptFilter)])] = Some (lit "%PDF-1.7" ++ [x0a] ++ lit "%" ++ [x80; x80; x80; x80; x0a; x0a] ++ lit "1 0 obj" ++ [x0a] ++ lit "<<" ++ [x0a] ++ lit "  /Length 9" ++ [x0a] ++ lit "  /Filter /Crypt" ++ [x0a] ++ lit ">>" ++ [x0a] ++ lit "stream" ++ [x0a] ++ lit "Hi there!" ++ [x0a] ++ lit "endstream" ++ [x0a] ++ lit "endobj" ++ [x0a; x0a] ++ lit "xref" ++ [x0a] ++ lit "0 2" ++ [x0a] ++ lit "0000000000 65535 f" ++ [x0d; x0a] ++ lit "0000000016 00000 n" ++ [x0d; x0a] ++ lit "trailer" ++ [x0a] ++ lit "<<" ++ [x0a] ++ lit "  /Size 2" ++ [x0a] ++ lit ">>" ++ [x0a] ++ lit "startxref" ++ [x0a] ++ lit "94" ++ [x0a] ++ lit "%%EOF").
Proof. vm_compute. reflexivity. Qed.

(** src/object.rs:1732-1750 [test_arrays_no_pretty] *)
Example test_arrays_no_pretty_1 : obj_text false (OArray []) = (lit "[]").
Proof. vm_compute. reflexivity. Qed.

(** src/object.rs:1732-1750 [test_arrays_no_pretty] *)
Example test_arrays_no_pretty_2 : obj_text false (OArray [OPrim (PInt 12); OPrim (PName (lit "Hi")); OPrim (PName (lit "Hi2")); OPrim (PBool false); OPrim (PText [65; 32; 115; 116; 114; 105; 110; 103]); ODict [(lit "Test1", OPrim (PInt 23))]; OPrim PNull; OPrim (PReal (f32_of_bits 1102787379))]) = (lit "[12/Hi/Hi2 false(A string)<</Test1 23>>null 23.4]").
Proof. vm_compute. reflexivity. Qed.

(** src/object.rs:1753-1770 [test_dicts_no_pretty] *)
Example test_dicts_no_pretty_1 : obj_text false (ODict []) = (lit "<<>>").
Proof. vm_compute. reflexivity. Qed.

(** src/object.rs:1753-1770 [test_dicts_no_pretty] *)
Example test_dicts_no_pretty_2 : obj_text false (ODict [(lit "Key1", OPrim (PInt 12)); (lit "Key2", OPrim (PName (lit "Hi"))); (lit "Key3", OPrim (PBool false)); (lit "Key4", OPrim (PText [65; 32; 115; 116; 114; 105; 110; 103])); (lit "Key5", OArray [OPrim (PInt 23); OPrim (PName (lit "Value"))]); (lit "Key6", OPrim PNull); (lit "Key7", OPrim (PReal (f32_of_bits 1102787379)))]) = (lit "<</Key1 12/Key2/Hi/Key3 false/Key4(A string)/Key5[23/Value]/Key6 null/Key7 23.4>>").
Proof. vm_compute. reflexivity. Qed.

(** src/lib.rs:653-662 *)
Example test_minimal : finished [] = Some (lit "%PDF-1.7" ++ [x0a] ++ lit "%" ++ [x80; x80; x80; x80; x0a; x0a] ++ lit "xref" ++ [x0a] ++ lit "0 1" ++ [x0a] ++ lit "0000000000 65535 f" ++ [x0d; x0a] ++ lit "trailer" ++ [x0a] ++ lit "<<" ++ [x0a] ++ lit "  /Size 1" ++ [x0a] ++ lit ">>" ++ [x0a] ++ lit "startxref" ++ [x0a] ++ lit "16" ++ [x0a] ++ lit "%%EOF").
Proof. vm_compute. reflexivity. Qed.

(** src/lib.rs:664-683 *)
Example test_xref_free_list_short : finished [DocOther (PdfObject 1 (OPrim (PInt 1))); DocOther (PdfObject 2 (OPrim (PInt 2)))] = Some (lit "%PDF-1.7" ++ [x0a] ++ lit "%" ++ [x80; x80; x80; x80; x0a; x0a] ++ lit "1 0 obj" ++ [x0a] ++ lit "1" ++ [x0a] ++ lit "endobj" ++ [x0a; x0a] ++ lit "2 0 obj" ++ [x0a] ++ lit "2" ++ [x0a] ++ lit "endobj" ++ [x0a; x0a] ++ lit "xref" ++ [x0a] ++ lit "0 3" ++ [x0a] ++ lit "0000000000 65535 f" ++ [x0d; x0a] ++ lit "0000000016 00000 n" ++ [x0d; x0a] ++ lit "0000000034 00000 n" ++ [x0d; x0a] ++ lit "trailer" ++ [x0a] ++ lit "<<" ++ [x0a] ++ lit "  /Size 3" ++ [x0a] ++ lit ">>" ++ [x0a] ++ lit "startxref" ++ [x0a] ++ lit "52" ++ [x0a] ++ lit "%%EOF").
Proof. vm_compute. reflexivity. Qed.

(** src/lib.rs:685-710 *)
Example test_xref_free_list_long : finished [DocOther (PdfVersion 1 4); DocOther (PdfObject 1 (OPrim (PInt 1))); DocOther (PdfObject 2 (OPrim (PInt 2))); DocOther (PdfObject 5 (OPrim (PInt 5)))] = Some (lit "%PDF-1.4" ++ [x0a] ++ lit "%" ++ [x80; x80; x80; x80; x0a; x0a] ++ lit "1 0 obj" ++ [x0a] ++ lit "1" ++ [x0a] ++ lit "endobj" ++ [x0a; x0a] ++ lit "2 0 obj" ++ [x0a] ++ lit "2" ++ [x0a] ++ lit "endobj" ++ [x0a; x0a] ++ lit "5 0 obj" ++ [x0a] ++ lit "5" ++ [x0a] ++ lit "endobj" ++ [x0a; x0a] ++ lit "xref" ++ [x0a] ++ lit "0 6" ++ [x0a] ++ lit "0000000003 65535 f" ++ [x0d; x0a] ++ lit "0000000016 00000 n" ++ [x0d; x0a] ++ lit "0000000034 00000 n" ++ [x0d; x0a] ++ lit "0000000004 00000 f" ++ [x0d; x0a] ++ lit "0000000000 00000 f" ++ [x0d; x0a] ++ lit "0000000052 00000 n" ++ [x0d; x0a] ++ lit "trailer" ++ [x0a] ++ lit "<<" ++ [x0a] ++ lit "  /Size 6" ++ [x0a] ++ lit ">>" ++ [x0a] ++ lit "startxref" ++ [x0a] ++ lit "70" ++ [x0a] ++ lit "%%EOF").
Proof. vm_compute. reflexivity. Qed.

(** src/lib.rs:712-722: panics *)
Example test_xref_free_list_duplicate : finished [DocOther (PdfObject 3 (OPrim (PInt 1))); DocOther (PdfObject 5 (OPrim (PInt 2))); DocOther (PdfObject 13 (OPrim (PInt 1))); DocOther (PdfObject 3 (OPrim (PInt 1))); DocOther (PdfObject 6 (OPrim (PInt 2)))] = None.
Proof. vm_compute. reflexivity. Qed.

(** src/lib.rs:724-735 *)
Example test_binary_marker : finished [DocOther (PdfMarker (x41, x42, x43, x44))] = Some (lit "%PDF-1.7" ++ [x0a] ++ lit "%ABCD" ++ [x0a; x0a] ++ lit "xref" ++ [x0a] ++ lit "0 1" ++ [x0a] ++ lit "0000000000 65535 f" ++ [x0d; x0a] ++ lit "trailer" ++ [x0a] ++ lit "<<" ++ [x0a] ++ lit "  /Size 1" ++ [x0a] ++ lit ">>" ++ [x0a] ++ lit "startxref" ++ [x0a] ++ lit "16" ++ [x0a] ++ lit "%%EOF").
Proof. vm_compute. reflexivity. Qed.

(** src/lib.rs:737-745 [field_width] *)
Example test_field_width : map field_width [128; 255; 256; 65535; 65536; 4294967295] = [1; 1; 2; 2; 3; 4].
Proof. vm_compute. reflexivity. Qed.

(** src/lib.rs:747-766 *)
Example test_xref_stream : finished_stream 6 [DocOther (PdfObject 1 (OPrim (PInt 1))); DocOther (PdfObject 2 (OPrim (PInt 2))); DocOther (PdfObject 5 (OPrim (PInt 5)))] = Some (lit "%PDF-1.7" ++ [x0a] ++ lit "%" ++ [x80; x80; x80; x80; x0a; x0a] ++ lit "1 0 obj" ++ [x0a] ++ lit "1" ++ [x0a] ++ lit "endobj" ++ [x0a; x0a] ++ lit "2 0 obj" ++ [x0a] ++ lit "2" ++ [x0a] ++ lit "endobj" ++ [x0a; x0a] ++ lit "5 0 obj" ++ [x0a] ++ lit "5" ++ [x0a] ++ lit "endobj" ++ [x0a; x0a] ++ lit "6 0 obj" ++ [x0a] ++ lit "<<" ++ [x0a] ++ lit "  /Length 28" ++ [x0a] ++ lit "  /Type /XRef" ++ [x0a] ++ lit "  /Size 7" ++ [x0a] ++ lit "  /W [1 1 2]" ++ [x0a] ++ lit ">>" ++ [x0a] ++ lit "stream" ++ [x0a; x00; x03; xff; xff; x01; x10; x00; x00; x01] ++ lit """" ++ [x00; x00; x00; x04; x00; x00; x00; x00; x00; x00; x01] ++ lit "4" ++ [x00; x00; x01] ++ lit "F" ++ [x00; x00; x0a] ++ lit "endstream" ++ [x0a] ++ lit "endobj" ++ [x0a; x0a] ++ lit "startxref" ++ [x0a] ++ lit "70" ++ [x0a] ++ lit "%%EOF").
Proof. vm_compute. reflexivity. Qed.

(** src/lib.rs:768-781 *)
Example test_xref_stream_single_filter : finished_filter 2 (fun _ => (lit "ABCDEFGH", Single FlateDecode)) [DocOther (PdfObject 1 (OPrim (PInt 1)))] = Some (lit "%PDF-1.7" ++ [x0a] ++ lit "%" ++ [x80; x80; x80; x80; x0a; x0a] ++ lit "1 0 obj" ++ [x0a] ++ lit "1" ++ [x0a] ++ lit "endobj" ++ [x0a; x0a] ++ lit "2 0 obj" ++ [x0a] ++ lit "<<" ++ [x0a] ++ lit "  /Length 8" ++ [x0a] ++ lit "  /Type /XRef" ++ [x0a] ++ lit "  /Filter /FlateDecode" ++ [x0a] ++ lit "  /Size 3" ++ [x0a] ++ lit "  /W [1 1 2]" ++ [x0a] ++ lit ">>" ++ [x0a] ++ lit "stream" ++ [x0a] ++ lit "ABCDEFGH" ++ [x0a] ++ lit "endstream" ++ [x0a] ++ lit "endobj" ++ [x0a; x0a] ++ lit "startxref" ++ [x0a] ++ lit "34" ++ [x0a] ++ lit "%%EOF").
Proof. vm_compute. reflexivity. Qed.

(** src/lib.rs:783-796 *)
Example test_xref_stream_multiple_filters : finished_filter 2 (fun _ => (lit "ABCDEFGH", Multiple [AsciiHexDecode; FlateDecode])) [DocOther (PdfObject 1 (OPrim (PInt 1)))] = Some (lit "%PDF-1.7" ++ [x0a] ++ lit "%" ++ [x80; x80; x80; x80; x0a; x0a] ++ lit "1 0 obj" ++ [x0a] ++ lit "1" ++ [x0a] ++ lit "endobj" ++ [x0a; x0a] ++ lit "2 0 obj" ++ [x0a] ++ lit "<<" ++ [x0a] ++ lit "  /Length 8" ++ [x0a] ++ lit "  /Type /XRef" ++ [x0a] ++ lit "  /Filter [/ASCIIHexDecode /FlateDecode]" ++ [x0a] ++ lit "  /Size 3" ++ [x0a] ++ lit "  /W [1 1 2]" ++ [x0a] ++ lit ">>" ++ [x0a] ++ lit "stream" ++ [x0a] ++ lit "ABCDEFGH" ++ [x0a] ++ lit "endstream" ++ [x0a] ++ lit "endobj" ++ [x0a; x0a] ++ lit "startxref" ++ [x0a] ++ lit "34" ++ [x0a] ++ lit "%%EOF").
Proof. vm_compute. reflexivity. Qed.

(** src/lib.rs:798-813 *)
Example test_xref_width2 : finished_stream 3 [DocTyped 1 (Ck_stream (repeat x30 256) []); DocOther (PdfObject 2 (OPrim (PInt 1)))] = Some ((lit "%PDF-1.7" ++ [x0a] ++ lit "%" ++ [x80; x80; x80; x80; x0a; x0a] ++ lit "1 0 obj" ++ [x0a] ++ lit "<<" ++ [x0a] ++ lit "  /Length 256" ++ [x0a] ++ lit ">>" ++ [x0a] ++ lit "stream" ++ [x0a]) ++ repeat x30 256 ++ ([x0a] ++ lit "endstream" ++ [x0a] ++ lit "endobj" ++ [x0a; x0a] ++ lit "2 0 obj" ++ [x0a] ++ lit "1" ++ [x0a] ++ lit "endobj" ++ [x0a; x0a] ++ lit "3 0 obj" ++ [x0a] ++ lit "<<" ++ [x0a] ++ lit "  /Length 20" ++ [x0a] ++ lit "  /Type /XRef" ++ [x0a] ++ lit "  /Size 4" ++ [x0a] ++ lit "  /W [1 2 2]" ++ [x0a] ++ lit ">>" ++ [x0a] ++ lit "stream" ++ [x0a; x00; x00; x00; xff; xff; x01; x00; x10; x00; x00; x01; x01] ++ lit "F" ++ [x00; x00; x01; x01] ++ lit "X" ++ [x00; x00; x0a] ++ lit "endstream" ++ [x0a] ++ lit "endobj" ++ [x0a; x0a] ++ lit "startxref" ++ [x0a] ++ lit "344" ++ [x0a] ++ lit "%%EOF")).
Proof. vm_compute. reflexivity. Qed.

(** src/chunk.rs:507-533: the chunk is filled while the writer of the font is open; the model writes the chunk first *)
Example test_chunk : match chunk_of 2 (Ck_font_descriptor [Fd_name (lit "MyFont")]) with Some c => finished [DocTyped 1 (Ck_type3_font [Typed (Type3Font_font_descriptor 2)]); DocOther (PdfExtend c)] | None => None end = Some (lit "%PDF-1.7" ++ [x0a] ++ lit "%" ++ [x80; x80; x80; x80; x0a; x0a] ++ lit "1 0 obj" ++ [x0a] ++ lit "<<" ++ [x0a] ++ lit "  /Type /Font" ++ [x0a] ++ lit "  /Subtype /Type3" ++ [x0a] ++ lit "  /FontDescriptor 2 0 R" ++ [x0a] ++ lit ">>" ++ [x0a] ++ lit "endobj" ++ [x0a; x0a] ++ lit "2 0 obj" ++ [x0a] ++ lit "<<" ++ [x0a] ++ lit "  /Type /FontDescriptor" ++ [x0a] ++ lit "  /FontName /MyFont" ++ [x0a] ++ lit ">>" ++ [x0a] ++ lit "endobj" ++ [x0a; x0a] ++ lit "xref" ++ [x0a] ++ lit "0 3" ++ [x0a] ++ lit "0000000000 65535 f" ++ [x0d; x0a] ++ lit "0000000016 00000 n" ++ [x0d; x0a] ++ lit "0000000094 00000 n" ++ [x0d; x0a] ++ lit "trailer" ++ [x0a] ++ lit "<<" ++ [x0a] ++ lit "  /Size 3" ++ [x0a] ++ lit ">>" ++ [x0a] ++ lit "startxref" ++ [x0a] ++ lit "160" ++ [x0a] ++ lit "%%EOF").
Proof. vm_compute. reflexivity. Qed.

(** src/annotations.rs:796-819 *)
Example test_annotations : match doc_run [DocTyped 1 (Ck_annotation [Typed (Annotation_rect (mkRect (f32_of_bits 0) (f32_of_bits 0) (f32_of_bits 1065353216) (f32_of_bits 1065353216)))]); DocTyped 2 (Ck_annotation [Typed (Annotation_rect (mkRect (f32_of_bits 1065353216) (f32_of_bits 1065353216) (f32_of_bits 0) (f32_of_bits 0)))])] pdf_new with Some p => Some (skipn 16 (chunk_bytes (p_chunk p))) | None => None end = Some (lit "1 0 obj" ++ [x0a] ++ lit "<<" ++ [x0a] ++ lit "  /Type /Annot" ++ [x0a] ++ lit "  /Rect [0 0 1 1]" ++ [x0a] ++ lit ">>" ++ [x0a] ++ lit "endobj" ++ [x0a; x0a] ++ lit "2 0 obj" ++ [x0a] ++ lit "<<" ++ [x0a] ++ lit "  /Type /Annot" ++ [x0a] ++ lit "  /Rect [1 1 0 0]" ++ [x0a] ++ lit ">>" ++ [x0a] ++ lit "endobj" ++ [x0a; x0a]).
Proof. vm_compute. reflexivity. Qed.

(** src/buf.rs:236-275 *)
Example test_content_limits : merge_all [content_limits true [(ModelContent.CCubicTo (f32_of_bits 1097125069) (f32_of_bits 1099012506) (f32_of_bits 1102367949) (f32_of_bits 1106719539) (f32_of_bits 1112041062) (f32_of_bits 1109393408)); (ModelContent.CShow (lit "Some text")); (ModelContent.CSetFont (lit "NotoSans") (f32_of_bits 1092616192))]; content_limits true [(ModelContent.CLineTo (f32_of_bits 1113325568) (f32_of_bits 3264649626)); (ModelContent.CSetFont (lit "Noto") (f32_of_bits 1092616192)); (ModelContent.CShowPositioned [ModelContent.Show (lit "A"); ModelContent.Show (lit "B"); ModelContent.Adjust (f32_of_bits 1107296256)]); (ModelContent.CMarkedContentPointWithProperties (lit "Hi") (ModelContent.MarkDict (writer_list [] PropertyList_entries [Typed (PropertyList_actual_text (TextPlain [116; 101; 120; 116]))])))]] = Some (mkLimits 55 (f32_of_bits 1117165978) 10 9 3 1).
Proof. vm_compute. reflexivity. Qed.

(** src/buf.rs:277-297 *)
Example test_chunk_limits : match doc_run [DocTyped 1 (Ck_form_xobject [] [STyped (FormXObject_bbox (mkRect (f32_of_bits 1082130432) (f32_of_bits 1086324736) (f32_of_bits 1102105805) (f32_of_bits 1106771968)))])] pdf_new with Some p => Some (merge limits0 (chunk_limits (p_chunk p))) | None => None end = Some (mkLimits 31 (f32_of_bits 1102105805) 7 0 4 4).
Proof. vm_compute. reflexivity. Qed.

(** src/content.rs:1733-1749 *)
Example test_content_encoding : content_text true [(ModelContent.CSaveState); (ModelContent.CRect (f32_of_bits 1065353216) (f32_of_bits 1073741824) (f32_of_bits 1077936128) (f32_of_bits 1082130432)); (ModelContent.CFillNonzero); (ModelContent.CSetDashPattern [(f32_of_bits 1088421888); (f32_of_bits 1073741824)] (f32_of_bits 1082130432)); (ModelContent.CXObject (lit "MyImage")); (ModelContent.CSetFillPattern [(f32_of_bits 1073741824); (f32_of_bits 1080033280)] (lit "MyPattern")); (ModelContent.CRestoreState)] = Some (lit "q" ++ [x0a] ++ lit "1 2 3 4 re" ++ [x0a] ++ lit "f" ++ [x0a] ++ lit "[7 2] 4 d" ++ [x0a] ++ lit "/MyImage Do" ++ [x0a] ++ lit "2 3.5 /MyPattern scn" ++ [x0a] ++ lit "Q").
Proof. vm_compute. reflexivity. Qed.

(** src/content.rs:1751-1771 *)
Example test_content_text : content_text true [(ModelContent.CSetFont (lit "F1") (f32_of_bits 1094713344)); (ModelContent.CBeginText); (ModelContent.CShowPositioned []); (ModelContent.CShowPositioned [ModelContent.Show (lit "AB"); ModelContent.Adjust (f32_of_bits 1073741824); ModelContent.Show (lit "CD")]); (ModelContent.CEndText)] = Some (lit "/F1 12 Tf" ++ [x0a] ++ lit "BT" ++ [x0a] ++ lit "[] TJ" ++ [x0a] ++ lit "[(AB) 2 (CD)] TJ" ++ [x0a] ++ lit "ET").
Proof. vm_compute. reflexivity. Qed.

(** src/content.rs:1773-1795 *)
Example test_content_array_no_pretty : content_text false [(ModelContent.CSetFont (lit "F1") (f32_of_bits 1094713344)); (ModelContent.CSetFont (lit "F2") (f32_of_bits 1097859072)); (ModelContent.CBeginText); (ModelContent.CShowPositioned []); (ModelContent.CShowPositioned [ModelContent.Show (lit "AB"); ModelContent.Adjust (f32_of_bits 1073741824); ModelContent.Show (lit "CD"); ModelContent.Adjust (f32_of_bits 1082130432); ModelContent.Show (lit "EF")]); (ModelContent.CEndText)] = Some (lit "/F1 12 Tf/F2 15 Tf" ++ [x0a] ++ lit "BT[]TJ[(AB)2(CD)4(EF)]TJ" ++ [x0a] ++ lit "ET").
Proof. vm_compute. reflexivity. Qed.

(** src/content.rs:1797-1809 *)
Example test_content_dict_no_pretty : content_text false [(ModelContent.CBeginMarkedContentWithProperties (lit "Test") (ModelContent.MarkDict (writer_list [] PropertyList_entries [Typed (PropertyList_actual_text (TextPlain [65; 99; 116; 117; 97; 108])); Typed (PropertyList_identify 1); Typed (PropertyList_artifact [Typed (Artifact_kind ArtifactType_Background)])])))] = Some (lit "/Test<</ActualText(Actual)/MCID 1/Type/Background>>BDC").
Proof. vm_compute. reflexivity. Qed.

(** src/functions.rs:434-453 *)
Example test_post_script_encoding : inner (ps_encode [PsReal (f32_of_bits 1077936128); PsReal (f32_of_bits 1073741824); PsSimple PsMul; PsSimple PsExch; PsSimple PsDup; PsReal (f32_of_bits 0); PsSimple PsGe; PsIfElse [PsReal (f32_of_bits 1065353216); PsSimple PsAdd] [PsSimple PsNeg]; PsSimple PsAdd]) = (lit "{ 3.0 2.0 mul exch dup 0.0 ge { 1.0 add } {neg} ifelse add }").
Proof. vm_compute. reflexivity. Qed.

(** src/structure.rs:2394-2399 *)
Example test_max_heading_name : StructRole2_name (StructRole2_Heading 65535) = Some (lit "H65535").
Proof. vm_compute. reflexivity. Qed.

(** src/renumber.rs:176-200: an object, an untidy object that no writer makes, and a stream. *)
Definition untidy_chunk : option chunk :=
  let c := chunk_object 4 (ODict [(lit "Nested", ODict [(lit "stream", OPrim (PBool true)); (lit "Nonself", OPrim (PRef 8)); (lit "R", OPrim (PBool false)); (lit "Safe", OPrim (PInt 10)); (lit "False", OPrim (PText [49; 55; 32; 48; 32; 82])); (lit "Unsafe", OPrim (PRef 17)); (lit "Unsafe", OPrim (PText [40; 41; 40; 65; 110; 100; 32; 40; 77; 111; 114; 101; 41; 32; 49; 55; 32; 48; 32; 82; 40; 41; 41]))])]) chunk_new in
  let c := mkChunk (extend (lit "8  3  obj" ++ [x0a] ++ lit "<</Fmt false/Niceness(4 0" ++ [x0a] ++ lit "R-)/beginobj/endobj%4 0 R" ++ [x0a] ++ lit "/Me 8 3  R/Unknown 11 0  R/R[4  0" ++ [x0a] ++ lit "R]>>%" ++ [x0a; x0a] ++ lit "endobj") (c_buf c)) (c_offsets c ++ [(8, chunk_len c)]) (c_pretty c) in
  chunk_stream 17 [(lit "Ok", OPrim (PText [41; 52; 32; 48; 32; 82])); (lit "Self", OPrim (PRef 17))] (lit "1 0 R 2 0 R 3 0 R 4 0 R") c.
(** src/renumber.rs:202-210. *)
Definition but_11 (t : memo_state) (old : Z) : Z * memo_state := if old =? 11 then (old, t) else memo t old.

(** src/renumber.rs:212-243 *)
Example test_renumber : match untidy_chunk with Some c => match chunk_renumber but_11 c ([], 1) with Some (r, _) => Some (chunk_bytes r) | None => None end | None => None end = Some (lit "1 0 obj" ++ [x0a] ++ lit "<<" ++ [x0a] ++ lit "  /Nested <<" ++ [x0a] ++ lit "    /stream true" ++ [x0a] ++ lit "    /Nonself 2 0 R" ++ [x0a] ++ lit "    /R false" ++ [x0a] ++ lit "    /Safe 10" ++ [x0a] ++ lit "    /False (17 0 R)" ++ [x0a] ++ lit "    /Unsafe 3 0 R" ++ [x0a] ++ lit "    /Unsafe (()(And (More) 17 0 R()))" ++ [x0a] ++ lit "  >>" ++ [x0a] ++ lit ">>" ++ [x0a] ++ lit "endobj" ++ [x0a; x0a] ++ lit "2 3 obj" ++ [x0a] ++ lit "<</Fmt false/Niceness(4 0" ++ [x0a] ++ lit "R-)/beginobj/endobj%4 0 R" ++ [x0a] ++ lit "/Me 2 3 R/Unknown 11 0 R/R[1 0 R]>>%" ++ [x0a] ++ lit "endobj" ++ [x0a; x0a] ++ lit "3 0 obj" ++ [x0a] ++ lit "<<" ++ [x0a] ++ lit "  /Length 23" ++ [x0a] ++ lit "  /Ok (\)4 0 R)" ++ [x0a] ++ lit "  /Self 3 0 R" ++ [x0a] ++ lit ">>" ++ [x0a] ++ lit "stream" ++ [x0a] ++ lit "1 0 R 2 0 R 3 0 R 4 0 R" ++ [x0a] ++ lit "endstream" ++ [x0a] ++ lit "endobj" ++ [x0a; x0a]).
Proof. vm_compute. reflexivity. Qed.

(** examples/hello.rs, and the documentation's minimal example (src/lib.rs:47-66): a reader finds the page and what is on it. *)
Definition hello_content : list ModelContent.ccall := [ModelContent.CBeginText; ModelContent.CSetFont (lit "F1") (f32_of_bits 1096810496);
  ModelContent.CNextLine (f32_of_bits 1121452032) (f32_of_bits 1144487936); ModelContent.CShow (lit "Hello World from Rust!"); ModelContent.CEndText].
Definition hello : list doc_op := [
  DocCatalog 1 [Typed (Catalog_pages 2)];
  DocTyped 2 (Ck_pages [Typed (Pages_kids [3]); Typed (Pages_count 1)]);
  DocTyped 3 (Ck_page [Typed (Page_media_box (mkRect (f32_of_bits 0) (f32_of_bits 0) (f32_of_bits 1142210560) (f32_of_bits 1146257408))); Typed (Page_parent 2); Typed (Page_contents 5); Typed (Page_annotations [6]);
    Typed (Page_resources [Typed (Resources_fonts [(lit "F1", OPrim (PRef 4))])])]);
  DocTyped 6 (Ck_annotation [Typed (Annotation_subtype AnnotationType_Link); Typed (Annotation_rect (mkRect (f32_of_bits 1129775104) (f32_of_bits 1144422400) (f32_of_bits 1132134400) (f32_of_bits 1144717312)));
    Typed (Annotation_contents (TextPlain (map bz (lit "Link to the Rust project web page")))); Typed (Annotation_color_rgb (f32_of_bits 0) (f32_of_bits 0) (f32_of_bits 1065353216));
    Typed (Annotation_action [Typed (Action_action_type ActionType_Uri); Typed (Action_uri (lit "https://www.rust-lang.org/"))]);
    Typed (Annotation_border_style [Typed (BorderStyle_width (f32_of_bits 1073741824)); Typed (BorderStyle_style BorderType_Underline)])]);
  DocTyped 4 (Ck_type1_font [Typed (Type1Font_base_font (lit "Helvetica"))]);
  DocTyped 5 (Ck_stream (match content_text true hello_content with Some s => s | None => [] end) [])].
Definition minimal : list doc_op := [
  DocCatalog 1 [Typed (Catalog_pages 2)];
  DocTyped 2 (Ck_pages [Typed (Pages_kids [3]); Typed (Pages_count 1)]);
  DocTyped 3 (Ck_page [Typed (Page_parent 2); Typed (Page_media_box (mkRect (f32_of_bits 0) (f32_of_bits 0) (f32_of_bits 1142210560) (f32_of_bits 1146257408))); Typed (Page_resources [])])].

(** The page with its operations *)
Example example_hello : match finished hello with Some file => read_pages (fun _ d => Some d) 3 file | None => None end = Some [[([], lit "BT"); ([VName (lit "F1"); VInt 14], lit "Tf"); ([VInt 108; VInt 734], lit "Td"); ([VStr (lit "Hello World from Rust!")], lit "Tj"); ([], lit "ET")]].
Proof. vm_compute. reflexivity. Qed.

(** An empty page *)
Example example_minimal : match finished minimal with Some file => read_pages (fun _ d => Some d) 3 file | None => None end = Some [[]].
Proof. vm_compute. reflexivity. Qed.
