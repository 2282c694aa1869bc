(** Specification: how a reader parses a content stream (ISO 32000-1, 7.8.2) and the operands that
    each operator takes (Annex A and Tables 57 to 62, 73, 74, 87, 105 to 109, 113, 320). *)

From Coq Require Import ZArith List Bool.
From Verif Require Import Bytes ModelFloat ModelObject ModelContent SpecLex SpecObj SpecMeans.
Import ListNotations.
Local Open Scope Z_scope.

(** A content stream is a sequence of operations: operands, then the operator keyword. *)
Fixpoint operations (fuel : nat) (s : bytes) : option (list (list val * bytes)) :=
  match fuel with
  | O => None
  | S f =>
      match objects (S (List.length s)) [] s with
      | Some ([], None, _) => Some []
      | Some (operands, Some (TKeyword k), r) => option_map (cons (operands, k)) (operations f r)
      | _ => None
      end
  end.
Definition parse_content (s : bytes) : option (list (list val * bytes)) := operations (S (List.length s)) s.

(** The content of a page may be an array of streams: a reader parses the concatenation, with white space between the
    parts (ISO 32000-2, 7.8.2). *)
Fixpoint join_lines (parts : list bytes) : bytes :=
  match parts with
  | [] => []
  | [s] => s
  | s :: rest => s ++ x0a :: join_lines rest
  end.

(** A word that a reader takes for an operator: regular characters, not a number, and not one of the words
    that are (parts of) objects. *)
Definition operator_ok (w : bytes) : bool :=
  negb (match w with [] => true | _ => false end) && forallb is_regular w &&
  (match number w with None => true | Some _ => false end) &&
  negb (bytes_eqb w (lit "R")) && negb (bytes_eqb w (lit "null")) &&
  negb (bytes_eqb w (lit "true")) && negb (bytes_eqb w (lit "false")).

(** What a caller must respect: operands that can be written (finite numbers, ...), and in compact mode
    no empty name directly before something that does not begin with a delimiter (property C13). *)
Fixpoint operands_apart (l : list obj) : bool :=
  match l with
  | [] => true
  | o :: r =>
      separable o &&
      (if is_empty_name o then match r with [] => false | o' :: _ => begins_with_delimiter o' end else true) &&
      operands_apart r
  end.
(** What ISO 32000 prescribes for each method of the API: the operands, in order, and the operator.  (Written
    from the operator tables of the standard, independently of the code.) *)
Definition num (v : f32) : obj := OPrim (PReal v).
Definition int (z : Z) : obj := OPrim (PInt z).
Definition nam (n : bytes) : obj := OPrim (PName n).
Definition str (s : bytes) : obj := OPrim (PStr s).
Definition properties (m : mark) : obj := match m with MarkDict entries => ODict entries | MarkNamed n => nam n end.
Definition space_name (s : cs_operand) : bytes :=
  match s with
  | CsDeviceGray => lit "DeviceGray" | CsDeviceRgb => lit "DeviceRGB" | CsDeviceCmyk => lit "DeviceCMYK"
  | CsPattern => lit "Pattern" | CsNamed n => n
  end.
Definition iso_operation (c : ccall) : list obj * bytes :=
  match c with
  | COp operator operands => (operands, operator)
  (* Table 57; line caps and joins: Tables 54, 55; rendering intents: Table 70 *)
  | CSaveState => ([], lit "q")
  | CRestoreState => ([], lit "Q")
  | CTransform a b c d e f => ([num a; num b; num c; num d; num e; num f], lit "cm")
  | CSetLineWidth w => ([num w], lit "w")
  | CSetLineCap ButtCap => ([int 0], lit "J")
  | CSetLineCap RoundCap => ([int 1], lit "J")
  | CSetLineCap ProjectingSquareCap => ([int 2], lit "J")
  | CSetLineJoin MiterJoin => ([int 0], lit "j")
  | CSetLineJoin RoundJoin => ([int 1], lit "j")
  | CSetLineJoin BevelJoin => ([int 2], lit "j")
  | CSetMiterLimit m => ([num m], lit "M")
  | CSetDashPattern array phase => ([OArray (map num array); num phase], lit "d")
  | CSetRenderingIntent AbsoluteColorimetric => ([nam (lit "AbsoluteColorimetric")], lit "ri")
  | CSetRenderingIntent RelativeColorimetric => ([nam (lit "RelativeColorimetric")], lit "ri")
  | CSetRenderingIntent IntentSaturation => ([nam (lit "Saturation")], lit "ri")
  | CSetRenderingIntent Perceptual => ([nam (lit "Perceptual")], lit "ri")
  | CSetFlatness tolerance => ([int tolerance], lit "i")
  | CSetParameters dict => ([nam dict], lit "gs")
  (* Table 59 *)
  | CMoveTo x y => ([num x; num y], lit "m")
  | CLineTo x y => ([num x; num y], lit "l")
  | CCubicTo x1 y1 x2 y2 x3 y3 => ([num x1; num y1; num x2; num y2; num x3; num y3], lit "c")
  | CCubicToInitial x2 y2 x3 y3 => ([num x2; num y2; num x3; num y3], lit "v")
  | CCubicToFinal x1 y1 x3 y3 => ([num x1; num y1; num x3; num y3], lit "y")
  | CClosePath => ([], lit "h")
  | CRect x y width height => ([num x; num y; num width; num height], lit "re")
  (* Tables 60, 61 *)
  | CStroke => ([], lit "S")
  | CCloseAndStroke => ([], lit "s")
  | CFillNonzero => ([], lit "f")
  | CFillEvenOdd => ([], lit "f*")
  | CFillNonzeroAndStroke => ([], lit "B")
  | CFillEvenOddAndStroke => ([], lit "B*")
  | CCloseFillNonzeroAndStroke => ([], lit "b")
  | CCloseFillEvenOddAndStroke => ([], lit "b*")
  | CEndPath => ([], lit "n")
  | CClipNonzero => ([], lit "W")
  | CClipEvenOdd => ([], lit "W*")
  (* Tables 105 to 109; text rendering modes: Table 106 *)
  | CBeginText => ([], lit "BT")
  | CEndText => ([], lit "ET")
  | CSetCharSpacing v => ([num v], lit "Tc")
  | CSetWordSpacing v => ([num v], lit "Tw")
  | CSetHorizontalScaling v => ([num v], lit "Tz")
  | CSetLeading v => ([num v], lit "TL")
  | CSetFont font size => ([nam font; num size], lit "Tf")
  | CSetTextRenderingMode TmFill => ([int 0], lit "Tr")
  | CSetTextRenderingMode TmStroke => ([int 1], lit "Tr")
  | CSetTextRenderingMode TmFillStroke => ([int 2], lit "Tr")
  | CSetTextRenderingMode TmInvisible => ([int 3], lit "Tr")
  | CSetTextRenderingMode TmFillClip => ([int 4], lit "Tr")
  | CSetTextRenderingMode TmStrokeClip => ([int 5], lit "Tr")
  | CSetTextRenderingMode TmFillStrokeClip => ([int 6], lit "Tr")
  | CSetTextRenderingMode TmClip => ([int 7], lit "Tr")
  | CSetRise v => ([num v], lit "Ts")
  | CNextLine x y => ([num x; num y], lit "Td")
  | CNextLineAndSetLeading x y => ([num x; num y], lit "TD")
  | CSetTextMatrix a b c d e f => ([num a; num b; num c; num d; num e; num f], lit "Tm")
  | CNextLineUsingLeading => ([], lit "T*")
  | CShow text => ([str text], lit "Tj")
  | CNextLineShow text => ([str text], lit "'")
  | CNextLineShowAndSet word_spacing char_spacing text => ([num word_spacing; num char_spacing; str text], [x22])
  | CShowPositioned items =>
      ([OArray (map (fun i => match i with Show s => str s | Adjust v => num v end) items)], lit "TJ")
  (* Table 113: the vertical displacement is 0 *)
  | CStartColorGlyph wx => ([num wx; num f32_zero], lit "d0")
  | CStartShapeGlyph wx ll_x ll_y ur_x ur_y =>
      ([num wx; num f32_zero; num ll_x; num ll_y; num ur_x; num ur_y], lit "d1")
  (* Table 74 *)
  | CSetStrokeColorSpace s => ([nam (space_name s)], lit "CS")
  | CSetFillColorSpace s => ([nam (space_name s)], lit "cs")
  | CSetStrokeColor color => (map num color, lit "SCN")
  | CSetStrokePattern tint n => (map num tint ++ [nam n], lit "SCN")
  | CSetFillColor color => (map num color, lit "scn")
  | CSetFillPattern tint n => (map num tint ++ [nam n], lit "scn")
  | CSetStrokeGray gray => ([num gray], lit "G")
  | CSetFillGray gray => ([num gray], lit "g")
  | CSetStrokeRgb r g b => ([num r; num g; num b], lit "RG")
  | CSetFillRgb r g b => ([num r; num g; num b], lit "rg")
  | CSetStrokeCmyk c m y k => ([num c; num m; num y; num k], lit "K")
  | CSetFillCmyk c m y k => ([num c; num m; num y; num k], lit "k")
  (* Tables 77, 87, 320, 32 *)
  | CShading n => ([nam n], lit "sh")
  | CXObject n => ([nam n], lit "Do")
  | CMarkedContentPoint tag => ([nam tag], lit "MP")
  | CMarkedContentPointWithProperties tag m => ([nam tag; properties m], lit "DP")
  | CBeginMarkedContent tag => ([nam tag], lit "BMC")
  | CBeginMarkedContentWithProperties tag m => ([nam tag; properties m], lit "BDC")
  | CEndMarkedContent => ([], lit "EMC")
  | CBeginCompat => ([], lit "BX")
  | CEndCompat => ([], lit "EX")
  end.

Definition ccall_ok (pretty : bool) (c : ccall) : bool :=
  let '(operands, operator) := iso_operation c in
  forallb obj_ok operands && operator_ok operator && (pretty || operands_apart operands).

(** The parsed operation is what the call asked for. *)
Definition ccall_means (c : ccall) (op : list val * bytes) : Prop :=
  Forall2 means (fst (iso_operation c)) (fst op) /\ snd op = snd (iso_operation c).

(** ** Operand types *)

Inductive kind := KNumber | KInteger | KName | KString | KNumbers | KShown | KProperties.
Inductive signature :=
| Fixed (l : list kind)
| Color.         (* any number of numbers, then possibly a name *)

Definition is_number (v : val) : bool := match v with VInt _ | VReal _ _ => true | _ => false end.
Definition is_name (v : val) : bool := match v with VName _ => true | _ => false end.
Definition has_kind (k : kind) (v : val) : bool :=
  match k, v with
  | KNumber, _ => is_number v
  | KInteger, VInt _ => true
  | KName, _ => is_name v
  | KString, VStr _ => true
  | KNumbers, VArr l => forallb is_number l
  | KShown, VArr l => forallb (fun v => is_number v || match v with VStr _ => true | _ => false end) l
  | KProperties, (VName _ | VDict _) => true
  | _, _ => false
  end.
Fixpoint all_kinds (ks : list kind) (vs : list val) : bool :=
  match ks, vs with
  | [], [] => true
  | k :: ks, v :: vs => has_kind k v && all_kinds ks vs
  | _, _ => false
  end.
Fixpoint color_operands (vs : list val) : bool :=
  match vs with
  | [] => true
  | [v] => is_number v || is_name v
  | v :: vs => is_number v && color_operands vs
  end.
Definition has_signature (s : signature) (vs : list val) : bool :=
  match s with Fixed ks => all_kinds ks vs | Color => color_operands vs end.

Definition operators : list (bytes * signature) :=
  [ (* Table 57: graphics state *)
    (lit "q", Fixed []); (lit "Q", Fixed []);
    (lit "cm", Fixed [KNumber; KNumber; KNumber; KNumber; KNumber; KNumber]);
    (lit "w", Fixed [KNumber]); (lit "J", Fixed [KInteger]); (lit "j", Fixed [KInteger]); (lit "M", Fixed [KNumber]);
    (lit "d", Fixed [KNumbers; KNumber]); (lit "ri", Fixed [KName]); (lit "i", Fixed [KNumber]); (lit "gs", Fixed [KName]);
    (* Table 59: path construction *)
    (lit "m", Fixed [KNumber; KNumber]); (lit "l", Fixed [KNumber; KNumber]);
    (lit "c", Fixed [KNumber; KNumber; KNumber; KNumber; KNumber; KNumber]);
    (lit "v", Fixed [KNumber; KNumber; KNumber; KNumber]); (lit "y", Fixed [KNumber; KNumber; KNumber; KNumber]);
    (lit "h", Fixed []); (lit "re", Fixed [KNumber; KNumber; KNumber; KNumber]);
    (* Tables 60, 61: path painting and clipping *)
    (lit "S", Fixed []); (lit "s", Fixed []); (lit "f", Fixed []); (lit "F", Fixed []); (lit "f*", Fixed []);
    (lit "B", Fixed []); (lit "B*", Fixed []); (lit "b", Fixed []); (lit "b*", Fixed []); (lit "n", Fixed []);
    (lit "W", Fixed []); (lit "W*", Fixed []);
    (* Tables 105 to 109: text *)
    (lit "BT", Fixed []); (lit "ET", Fixed []);
    (lit "Tc", Fixed [KNumber]); (lit "Tw", Fixed [KNumber]); (lit "Tz", Fixed [KNumber]); (lit "TL", Fixed [KNumber]);
    (lit "Tf", Fixed [KName; KNumber]); (lit "Tr", Fixed [KInteger]); (lit "Ts", Fixed [KNumber]);
    (lit "Td", Fixed [KNumber; KNumber]); (lit "TD", Fixed [KNumber; KNumber]);
    (lit "Tm", Fixed [KNumber; KNumber; KNumber; KNumber; KNumber; KNumber]); (lit "T*", Fixed []);
    (lit "Tj", Fixed [KString]); (lit "'", Fixed [KString]); ([x22], Fixed [KNumber; KNumber; KString]);
    (lit "TJ", Fixed [KShown]);
    (* Table 113: type 3 fonts *)
    (lit "d0", Fixed [KNumber; KNumber]); (lit "d1", Fixed [KNumber; KNumber; KNumber; KNumber; KNumber; KNumber]);
    (* Table 74: color *)
    (lit "CS", Fixed [KName]); (lit "cs", Fixed [KName]); (lit "SCN", Color); (lit "scn", Color);
    (lit "G", Fixed [KNumber]); (lit "g", Fixed [KNumber]);
    (lit "RG", Fixed [KNumber; KNumber; KNumber]); (lit "rg", Fixed [KNumber; KNumber; KNumber]);
    (lit "K", Fixed [KNumber; KNumber; KNumber; KNumber]); (lit "k", Fixed [KNumber; KNumber; KNumber; KNumber]);
    (* Tables 77, 87, 320, 32: shading, XObjects, marked content, compatibility *)
    (lit "sh", Fixed [KName]); (lit "Do", Fixed [KName]);
    (lit "MP", Fixed [KName]); (lit "DP", Fixed [KName; KProperties]);
    (lit "BMC", Fixed [KName]); (lit "BDC", Fixed [KName; KProperties]); (lit "EMC", Fixed []);
    (lit "BX", Fixed []); (lit "EX", Fixed []) ].

Fixpoint signature_of (k : bytes) (l : list (bytes * signature)) : option signature :=
  match l with [] => None | (k', s) :: r => if bytes_eqb k k' then Some s else signature_of k r end.

(** A well-formed operation: a known operator with operands of its types. *)
Definition well_formed (op : list val * bytes) : bool :=
  match signature_of (snd op) operators with
  | Some s => has_signature s (fst op)
  | None => false
  end.

(** Every method but the one for arbitrary operations. *)
Definition named_call (c : ccall) : bool := match c with COp _ _ => false | _ => true end.

(** ** Nesting depth *)

(** The depth by the definition in 8.4.2: a stack. *)
Inductive depth_after : list ccall -> Z -> Prop :=
| DepthNone : depth_after [] 0
| DepthSave h d : depth_after h d -> depth_after (h ++ [CSaveState]) (d + 1)
| DepthRestore h d : depth_after h (d + 1) -> 0 <= d -> depth_after (h ++ [CRestoreState]) d
| DepthUnderflow h : depth_after h 0 -> depth_after (h ++ [CRestoreState]) 0
| DepthOther h c d : depth_after h d -> c <> CSaveState -> c <> CRestoreState -> depth_after (h ++ [c]) d.

(** Balanced histories. *)
Inductive balanced : list ccall -> Prop :=
| BalNone : balanced []
| BalOther c : c <> CSaveState -> c <> CRestoreState -> balanced [c]
| BalPair h : balanced h -> balanced (CSaveState :: h ++ [CRestoreState])
| BalApp h k : balanced h -> balanced k -> balanced (h ++ k).

(** Number of operations with a given operator. *)
Definition count_op (k : bytes) (l : list (list val * bytes)) : Z :=
  Z.of_nat (List.length (List.filter (fun op => bytes_eqb (snd op) k) l)).
Definition saves (h : list ccall) : Z :=
  Z.of_nat (List.length (List.filter (fun c => match c with CSaveState => true | _ => false end) h)).
Definition restores (h : list ccall) : Z :=
  Z.of_nat (List.length (List.filter (fun c => match c with CRestoreState => true | _ => false end) h)).
