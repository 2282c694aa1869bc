(** Model of src/content.rs: content streams. *)

From Coq Require Import ZArith List Lia Bool.
From Verif Require Import Bytes ModelFloat ModelBuf ModelObject.
Import ListNotations.
Local Open Scope Z_scope.

(** [usize::MAX] on a 64-bit target. *)
Definition usize_max : Z := 2 ^ 64 - 1.

(** src/content.rs:6-10 [struct Content]. *)
Record content := mkContent { ct_buf : buf; ct_pretty : bool; ct_depth : Z }.

(** src/content.rs:17-41, the four constructors (the initial capacity has no observable effect). *)
Definition content_with_settings (pretty : bool) : content := mkContent buf_new pretty 0.
Definition content_new : content := content_with_settings true.

(** src/content.rs:56-58 [as_bytes] and 46-48 [len]. *)
Definition content_bytes (c : content) : bytes := inner (ct_buf c).
Definition content_len (c : content) : Z := blen (content_bytes c).

(** ** Operations *)

(** src/content.rs:119-142 [Operation::obj] followed by writing the object [o]; [first] is the field of the
    same name. *)
Definition op_operand (pretty first : bool) (o : obj) (b : buf) : buf :=
  let pad_byte := if first then x0a else x20 in
  let '(needs_padding, b) :=
    if pretty then (false, match inner b with [] => b | _ => push pad_byte b end)
    else (true, b) in
  write_obj o (obj_direct 0 pretty needs_padding) b.

(** src/content.rs:145-163 [Drop for Operation]. *)
Definition op_drop (pretty first : bool) (operator : bytes) (b : buf) : buf :=
  let pad_byte := if first then x0a else x20 in
  let last_regular := match last_byte (inner b) with Some c => negb (is_delimiter_character c) | None => false end in
  let b := if (pretty || last_regular) && negb (match inner b with [] => true | _ => false end)
           then push pad_byte b else b in
  extend operator b.

(** The operands in order; [first] is cleared by the first one. *)
Fixpoint op_operands (pretty first : bool) (l : list obj) (b : buf) : bool * buf :=
  match l with
  | [] => (first, b)
  | o :: r => op_operands pretty false r (op_operand pretty first o b)
  end.

(** src/content.rs:60-64 [Content::op], with the operands written through [operand], [operands]
    (101-117) or [obj], and dropped. *)
Definition write_op (operands : list obj) (operator : bytes) (c : content) : content :=
  let '(first, b) := op_operands (ct_pretty c) true operands (ct_buf c) in
  mkContent (op_drop (ct_pretty c) first operator b) (ct_pretty c) (ct_depth c).

(** src/content.rs:75-80 [finish]. *)
Definition content_finish (c : content) : buf :=
  match last_byte (content_bytes c) with
  | Some x0a => mkBuf (removelast (inner (ct_buf c))) (lims (ct_buf c))
  | _ => ct_buf c
  end.

(** ** Arguments that are enums *)

(** src/content.rs:240-260. *)
Inductive line_cap := ButtCap | RoundCap | ProjectingSquareCap.
Definition line_cap_int (v : line_cap) : Z := match v with ButtCap => 0 | RoundCap => 1 | ProjectingSquareCap => 2 end.

(** src/content.rs:264-283. *)
Inductive line_join := MiterJoin | RoundJoin | BevelJoin.
Definition line_join_int (v : line_join) : Z := match v with MiterJoin => 0 | RoundJoin => 1 | BevelJoin => 2 end.

(** src/content.rs:286-309. *)
Inductive rendering_intent := AbsoluteColorimetric | RelativeColorimetric | IntentSaturation | Perceptual.
Definition rendering_intent_name (v : rendering_intent) : bytes :=
  match v with
  | AbsoluteColorimetric => lit "AbsoluteColorimetric"
  | RelativeColorimetric => lit "RelativeColorimetric"
  | IntentSaturation => lit "Saturation"
  | Perceptual => lit "Perceptual"
  end.

(** src/content.rs:566-605. *)
Inductive text_mode := TmFill | TmStroke | TmFillStroke | TmInvisible | TmFillClip | TmStrokeClip | TmFillStrokeClip | TmClip.
Definition text_mode_int (v : text_mode) : Z :=
  match v with
  | TmFill => 0 | TmStroke => 1 | TmFillStroke => 2 | TmInvisible => 3
  | TmFillClip => 4 | TmStrokeClip => 5 | TmFillStrokeClip => 6 | TmClip => 7
  end.

(** src/content.rs:894-946 [ColorSpaceOperand] (the conversion from [Name] is [CsNamed]). *)
Inductive cs_operand := CsDeviceGray | CsDeviceRgb | CsDeviceCmyk | CsPattern | CsNamed (n : bytes).
Definition cs_operand_name (v : cs_operand) : bytes :=
  match v with
  | CsDeviceGray => lit "DeviceGray"
  | CsDeviceRgb => lit "DeviceRGB"
  | CsDeviceCmyk => lit "DeviceCMYK"
  | CsPattern => lit "Pattern"
  | CsNamed n => n
  end.

(** src/content.rs:698-735 [PositionedItems] (its [show] and [adjust]). *)
Inductive pos_item := Show (text : bytes) | Adjust (amount : f32).
Definition pos_item_obj (i : pos_item) : obj :=
  match i with Show s => OPrim (PStr s) | Adjust v => OPrim (PReal v) end.

(** src/content.rs:1008-1041 [MarkContent]: a property list written into the operation, or one named.
    (Calling neither or both is possible and is [COp].) *)
Inductive mark := MarkDict (entries : list (bytes * obj)) | MarkNamed (name : bytes).
Definition mark_obj (m : mark) : obj :=
  match m with MarkDict es => ODict es | MarkNamed n => OPrim (PName n) end.

(** ** The methods of [Content] *)

(** One constructor per method.  [matrix : \[f32; 6\]] arguments are six numbers. *)
Inductive ccall : Type :=
| COp (operator : bytes) (operands : list obj)
(* general graphics state *)
| CSetLineWidth (width : f32) | CSetLineCap (cap : line_cap) | CSetLineJoin (join : line_join)
| CSetMiterLimit (limit : f32) | CSetDashPattern (array : list f32) (phase : f32)
| CSetRenderingIntent (intent : rendering_intent) | CSetFlatness (tolerance : Z) | CSetParameters (dict : bytes)
(* special graphics state *)
| CSaveState | CRestoreState | CTransform (a b c d e f : f32)
(* path construction *)
| CMoveTo (x y : f32) | CLineTo (x y : f32) | CCubicTo (x1 y1 x2 y2 x3 y3 : f32)
| CCubicToInitial (x2 y2 x3 y3 : f32) | CCubicToFinal (x1 y1 x3 y3 : f32) | CClosePath
| CRect (x y width height : f32)
(* path painting, clipping *)
| CStroke | CCloseAndStroke | CFillNonzero | CFillEvenOdd | CFillNonzeroAndStroke | CFillEvenOddAndStroke
| CCloseFillNonzeroAndStroke | CCloseFillEvenOddAndStroke | CEndPath | CClipNonzero | CClipEvenOdd
(* text *)
| CBeginText | CEndText | CSetCharSpacing (v : f32) | CSetWordSpacing (v : f32) | CSetHorizontalScaling (v : f32)
| CSetLeading (v : f32) | CSetFont (font : bytes) (size : f32) | CSetTextRenderingMode (mode : text_mode)
| CSetRise (v : f32) | CNextLine (x y : f32) | CNextLineAndSetLeading (x y : f32)
| CSetTextMatrix (a b c d e f : f32) | CNextLineUsingLeading | CShow (text : bytes) | CNextLineShow (text : bytes)
| CNextLineShowAndSet (word_spacing char_spacing : f32) (text : bytes) | CShowPositioned (items : list pos_item)
(* type 3 fonts *)
| CStartColorGlyph (wx : f32) | CStartShapeGlyph (wx ll_x ll_y ur_x ur_y : f32)
(* color *)
| CSetStrokeColorSpace (space : cs_operand) | CSetFillColorSpace (space : cs_operand)
| CSetStrokeColor (color : list f32) | CSetStrokePattern (tint : list f32) (name : bytes)
| CSetFillColor (color : list f32) | CSetFillPattern (tint : list f32) (name : bytes)
| CSetStrokeGray (gray : f32) | CSetFillGray (gray : f32) | CSetStrokeRgb (r g b : f32) | CSetFillRgb (r g b : f32)
| CSetStrokeCmyk (c m y k : f32) | CSetFillCmyk (c m y k : f32)
(* shading, XObject, marked content, compatibility *)
| CShading (shading : bytes) | CXObject (name : bytes)
| CMarkedContentPoint (tag : bytes) | CMarkedContentPointWithProperties (tag : bytes) (m : mark)
| CBeginMarkedContent (tag : bytes) | CBeginMarkedContentWithProperties (tag : bytes) (m : mark) | CEndMarkedContent
| CBeginCompat | CEndCompat.

Definition reals (l : list f32) : list obj := map (fun v => OPrim (PReal v)) l.
Definition name (n : bytes) : obj := OPrim (PName n).

(** The operands and the operator that each method writes (src/content.rs:165-1012, 1219-1231). *)
Definition call_op (c : ccall) : list obj * bytes :=
  match c with
  | COp operator operands => (operands, operator)                                            (* 62 *)
  | CSetLineWidth w => (reals [w], lit "w")                                                  (* 169 *)
  | CSetLineCap v => ([OPrim (PInt (line_cap_int v))], lit "J")                              (* 177 *)
  | CSetLineJoin v => ([OPrim (PInt (line_join_int v))], lit "j")                            (* 184 *)
  | CSetMiterLimit v => (reals [v], lit "M")                                                 (* 191 *)
  | CSetDashPattern l phase => ([OArray (reals l); OPrim (PReal phase)], lit "d")            (* 198 *)
  | CSetRenderingIntent v => ([name (rendering_intent_name v)], lit "ri")                    (* 212 *)
  | CSetFlatness v => ([OPrim (PInt v)], lit "i")                                            (* 221 *)
  | CSetParameters n => ([name n], lit "gs")                                                 (* 232 *)
  | CSaveState => ([], lit "q")                                                              (* 314 *)
  | CRestoreState => ([], lit "Q")                                                           (* 322 *)
  | CTransform a b c d e f => (reals [a; b; c; d; e; f], lit "cm")                           (* 337 *)
  | CMoveTo x y => (reals [x; y], lit "m")                                                   (* 347 *)
  | CLineTo x y => (reals [x; y], lit "l")                                                   (* 354 *)
  | CCubicTo a b c d e f => (reals [a; b; c; d; e; f], lit "c")                              (* 362 *)
  | CCubicToInitial a b c d => (reals [a; b; c; d], lit "v")                                 (* 378 *)
  | CCubicToFinal a b c d => (reals [a; b; c; d], lit "y")                                   (* 386 *)
  | CClosePath => ([], lit "h")                                                              (* 393 *)
  | CRect x y w h => (reals [x; y; w; h], lit "re")                                          (* 400 *)
  | CStroke => ([], lit "S")                                                                 (* 410 *)
  | CCloseAndStroke => ([], lit "s")                                                         (* 417 *)
  | CFillNonzero => ([], lit "f")                                                            (* 424 *)
  | CFillEvenOdd => ([], lit "f*")                                                           (* 431 *)
  | CFillNonzeroAndStroke => ([], lit "B")                                                   (* 439 *)
  | CFillEvenOddAndStroke => ([], lit "B*")                                                  (* 446 *)
  | CCloseFillNonzeroAndStroke => ([], lit "b")                                              (* 454 *)
  | CCloseFillEvenOddAndStroke => ([], lit "b*")                                             (* 462 *)
  | CEndPath => ([], lit "n")                                                                (* 471 *)
  | CClipNonzero => ([], lit "W")                                                            (* 482 *)
  | CClipEvenOdd => ([], lit "W*")                                                           (* 490 *)
  | CBeginText => ([], lit "BT")                                                             (* 500 *)
  | CEndText => ([], lit "ET")                                                               (* 507 *)
  | CSetCharSpacing v => (reals [v], lit "Tc")                                               (* 517 *)
  | CSetWordSpacing v => (reals [v], lit "Tw")                                               (* 524 *)
  | CSetHorizontalScaling v => (reals [v], lit "Tz")                                         (* 531 *)
  | CSetLeading v => (reals [v], lit "TL")                                                   (* 538 *)
  | CSetFont n v => ([name n; OPrim (PReal v)], lit "Tf")                                    (* 545 *)
  | CSetTextRenderingMode v => ([OPrim (PInt (text_mode_int v))], lit "Tr")                  (* 552 *)
  | CSetRise v => (reals [v], lit "Ts")                                                      (* 559 *)
  | CNextLine x y => (reals [x; y], lit "Td")                                                (* 610 *)
  | CNextLineAndSetLeading x y => (reals [x; y], lit "TD")                                   (* 618 *)
  | CSetTextMatrix a b c d e f => (reals [a; b; c; d; e; f], lit "Tm")                       (* 625 *)
  | CNextLineUsingLeading => ([], lit "T*")                                                  (* 633 *)
  | CShow s => ([OPrim (PStr s)], lit "Tj")                                                  (* 645 *)
  | CNextLineShow s => ([OPrim (PStr s)], lit "'")                                           (* 652 *)
  | CNextLineShowAndSet w c s => (reals [w; c] ++ [OPrim (PStr s)], [x22])                   (* 660 *)
  | CShowPositioned l => ([OArray (map pos_item_obj l)], lit "TJ")                           (* 672-692 *)
  | CStartColorGlyph wx => (reals [wx; f32_zero], lit "d0")                                  (* 743 *)
  | CStartShapeGlyph wx a b c d => (reals [wx; f32_zero; a; b; c; d], lit "d1")              (* 754 *)
  | CSetStrokeColorSpace v => ([name (cs_operand_name v)], lit "CS")                         (* 774 *)
  | CSetFillColorSpace v => ([name (cs_operand_name v)], lit "cs")                           (* 787 *)
  | CSetStrokeColor l => (reals l, lit "SCN")                                                (* 798 *)
  | CSetStrokePattern l n => (reals l ++ [name n], lit "SCN")                                (* 812 *)
  | CSetFillColor l => (reals l, lit "scn")                                                  (* 824 *)
  | CSetFillPattern l n => (reals l ++ [name n], lit "scn")                                  (* 835 *)
  | CSetStrokeGray v => (reals [v], lit "G")                                                 (* 847 *)
  | CSetFillGray v => (reals [v], lit "g")                                                   (* 855 *)
  | CSetStrokeRgb r g b => (reals [r; g; b], lit "RG")                                       (* 863 *)
  | CSetFillRgb r g b => (reals [r; g; b], lit "rg")                                         (* 871 *)
  | CSetStrokeCmyk c m y k => (reals [c; m; y; k], lit "K")                                  (* 879 *)
  | CSetFillCmyk c m y k => (reals [c; m; y; k], lit "k")                                    (* 887 *)
  | CShading n => ([name n], lit "sh")                                                       (* 952 *)
  | CXObject n => ([name n], lit "Do")                                                       (* 964 *)
  | CMarkedContentPoint t => ([name t], lit "MP")                                            (* 974 *)
  | CMarkedContentPointWithProperties t m => ([name t; mark_obj m], lit "DP")                (* 981 *)
  | CBeginMarkedContent t => ([name t], lit "BMC")                                           (* 989 *)
  | CBeginMarkedContentWithProperties t m => ([name t; mark_obj m], lit "BDC")               (* 996 *)
  | CEndMarkedContent => ([], lit "EMC")                                                     (* 1004 *)
  | CBeginCompat => ([], lit "BX")                                                           (* 1221 *)
  | CEndCompat => ([], lit "EX")                                                             (* 1228 *)
  end.

(** The assertions: src/content.rs:170 ([width >= 0.0]) and 222-225 ([0..=100]). *)
Definition call_allowed (c : ccall) : bool :=
  match c with
  | CSetLineWidth w => f32_leb f32_zero w
  | CSetFlatness v => (0 <=? v) && (v <=? 100)
  | _ => true
  end.

(** src/content.rs:314-327: the nesting depth (saturating). *)
Definition call_depth (c : ccall) (d : Z) : Z :=
  match c with
  | CSaveState => Z.min usize_max (d + 1)
  | CRestoreState => Z.max 0 (d - 1)
  | _ => d
  end.

(** One method call; [None] is a panic. *)
Definition content_step (call : ccall) (c : content) : option content :=
  if call_allowed call then
    let '(operands, operator) := call_op call in
    let c := write_op operands operator c in
    Some (mkContent (ct_buf c) (ct_pretty c) (call_depth call (ct_depth c)))
  else None.

Fixpoint content_run (calls : list ccall) (c : content) : option content :=
  match calls with
  | [] => Some c
  | call :: r => match content_step call c with Some c => content_run r c | None => None end
  end.

(** src/content.rs:330-332. *)
Definition state_nesting_depth (c : content) : Z := ct_depth c.
