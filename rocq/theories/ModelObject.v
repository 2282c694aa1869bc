(** Model of src/object.rs: primitive objects and the [Obj], [Array], [Dict] and
    [Stream] writers. *)

From Coq Require Import ZArith List Lia Bool.
From Verif Require Import Bytes ModelFloat ModelBuf.
Import ListNotations.
Local Open Scope Z_scope.

(** ** Str *)

(** src/object.rs:84-95 [Str::is_balanced] (loop with counter [depth]). *)
Fixpoint is_balanced_from (depth : Z) (s : bytes) : bool :=
  match s with
  | [] => depth =? 0
  | c :: r =>
      if beq c x28 then is_balanced_from (depth + 1) r
      else if beq c x29 then (if 0 <? depth then is_balanced_from (depth - 1) r else false)
      else is_balanced_from depth r
  end.
Definition is_balanced (s : bytes) : bool := is_balanced_from 0 s.

(** src/object.rs:113-136, the loop body: [balanced] is the memoised
    [Option<bool>]; [whole] is [self.0]. *)
Definition str_byte (whole : bytes) (balanced : option bool) (c : byte) : option bool * bytes :=
  if beq c x28 || beq c x29 then
    let v := match balanced with
             | Some v => v
             | None => negb (beq c x29) && is_balanced whole
             end in
    (Some v, (if v then [] else [x5c]) ++ [c])
  else if beq c x5c then (balanced, [x5c; x5c])
  else if (32 <=? bz c) && (bz c <=? 126) then (balanced, [c])
  else if beq c x0a then (balanced, [x5c; x6e])
  else if beq c x0d then (balanced, [x5c; x72])
  else if beq c x09 then (balanced, [x5c; x74])
  else if beq c x08 then (balanced, [x5c; x62])
  else if beq c x0c then (balanced, [x5c; x66])
  else (balanced, x5c :: octal3 c).

Fixpoint str_literal (whole : bytes) (balanced : option bool) (s : bytes) : bytes :=
  match s with
  | [] => []
  | c :: r =>
      let '(bal, out) := str_byte whole balanced c in
      out ++ str_literal whole bal r
  end.

(** src/object.rs:98-150 [Str::write]; [is_ascii] is "below 128". *)
Definition str_bytes (s : bytes) : bytes :=
  if forallb (fun c => bz c <? 128) s
  then [x28] ++ str_literal s None s ++ [x29]
  else [x3c] ++ flat_map hex2 s ++ [x3e].

Definition write_str (s : bytes) (b : buf) : buf :=
  extend (str_bytes s) (with_limits (register_str_len (blen s)) b).

(** ** Unicode text.  A Rust [&str] is modelled as its list of Unicode scalar values. *)

Definition is_scalar (c : Z) : bool :=
  (0 <=? c) && (c <=? 1114111) && negb ((55296 <=? c) && (c <=? 57343)).

(** UTF-8 encoding of one scalar value (the memory representation of [&str]; needed for
    [self.0.len()], [self.0.bytes()] and [self.0.as_bytes()]). *)
Definition utf8 (c : Z) : bytes :=
  if c <? 128 then [zb c]
  else if c <? 2048 then [zb (192 + c / 64); zb (128 + c mod 64)]
  else if c <? 65536 then
    [zb (224 + c / 4096); zb (128 + (c / 64) mod 64); zb (128 + c mod 64)]
  else
    [zb (240 + c / 262144); zb (128 + (c / 4096) mod 64); zb (128 + (c / 64) mod 64);
     zb (128 + c mod 64)].

Definition str_utf8 (t : list Z) : bytes := flat_map utf8 t.

(** [str::encode_utf16] (standard library) for one scalar value. *)
Definition utf16 (c : Z) : list Z :=
  if c <? 65536 then [c]
  else [55296 + (c - 65536) / 1024; 56320 + (c - 65536) mod 1024].

Definition hex_utf16 (t : list Z) : bytes := flat_map hex4 (flat_map utf16 t).

(** src/object.rs:292-296 and 298-300: header [<FEFF] and footer [>]. *)
Definition text_header : bytes := [x3c] ++ hex2 xfe ++ hex2 xff.
Definition text_footer : bytes := [x3e].

(** src/object.rs:169-183 [TextStr::write]. *)
Definition write_text (t : list Z) (b : buf) : buf :=
  let b := with_limits (register_str_len (blen (str_utf8 t))) b in
  if forallb (fun c => (32 <=? bz c) && (bz c <=? 126)) (str_utf8 t)
  then write_str (str_utf8 t) b
  else extend (text_header ++ hex_utf16 t ++ text_footer) b.

(** src/object.rs:191-196 [LanguageIdentifier]. *)
Record langid := mkLang { lang : byte * byte; region : option (byte * byte) }.

(** src/object.rs:235-241 [char::is_ascii_alphanumeric] and [str_to_code]. *)
Definition is_alnum (c : Z) : bool :=
  ((48 <=? c) && (c <=? 57)) || ((65 <=? c) && (c <=? 90)) || ((97 <=? c) && (c <=? 122)).

Definition str_to_code (t : list Z) : option (byte * byte) :=
  if forallb is_alnum t then
    match str_utf8 t with
    | [a; b] => Some (a, b)
    | _ => None
    end
  else None.

(** src/object.rs:210-213 and 219-223. *)
Definition from_lang (l : list Z) : option langid :=
  match str_to_code l with Some c => Some (mkLang c None) | None => None end.
Definition from_lang_region (l r : list Z) : option langid :=
  match str_to_code l with
  | None => None
  | Some c => match str_to_code r with Some d => Some (mkLang c (Some d)) | None => None end
  end.

(** src/object.rs:227-233 [LanguageIdentifier::len]. *)
Definition lang_len (l : langid) : Z := match region l with Some _ => 4 | None => 2 end.

(** src/object.rs:302-316 [write_utf16be_lang_code], as the bytes pushed. *)
Definition lang_code (l : langid) : bytes :=
  hex4 27 ++ hex4 (bz (fst (lang l))) ++ hex4 (bz (snd (lang l))) ++
  match region l with
  | Some (a, b) => hex4 (bz a) ++ hex4 (bz b)
  | None => []
  end ++ hex4 27.

(** src/object.rs:255-287 [TextStrWithLang::write]. *)
Definition write_text_lang (segs : list (langid * list Z)) (b : buf) : buf :=
  let len := fold_left (fun n seg => n + (blen (str_utf8 (snd seg)) + lang_len (fst seg) + 2)) segs 0 in
  let b := with_limits (register_str_len len) b in
  extend (text_header ++
          flat_map (fun seg => lang_code (fst seg) ++ hex_utf16 (snd seg)) segs ++
          text_footer) b.

(** ** Name *)

(** src/object.rs:360-380 [is_regular_character]. *)
Definition is_regular_character (c : byte) : bool :=
  negb (bmem c [x00; x09; x0a; x0c; x0d; x20; x28; x29; x3c; x3e; x5b; x5d; x7b; x7d; x2f; x25]).

(** src/object.rs:383-385 [is_delimiter_character]. *)
Definition is_delimiter_character (c : byte) : bool :=
  bmem c [x28; x29; x3c; x3e; x5b; x5d; x2f; x25].

(** src/object.rs:342-352, the loop body of [Name::write]. *)
Definition name_byte (c : byte) : bytes :=
  if negb (beq c x23) && ((33 <=? bz c) && (bz c <=? 126)) && is_regular_character c
  then [c] else x23 :: hex2 c.

Definition name_bytes (s : bytes) : bytes := x2f :: flat_map name_byte s.

(** src/object.rs:335-354 [Name::write]. *)
Definition write_name (s : bytes) (b : buf) : buf :=
  extend (name_bytes s) (with_limits (register_name_len (blen s)) b).

(** ** Ref *)

(** src/object.rs:414-420 [Ref::new]: [None] is the panic. *)
Definition ref_new (id : Z) : option Z := if 0 <? id then Some id else None.

(** src/object.rs:430-432 [Ref::next]: [get() + 1] is an i32 addition.  In the debug
    profile the addition panics on overflow; in release it wraps to a negative number,
    on which [Ref::new] panics: either way [None]. *)
Definition ref_next (r : Z) : option Z := ref_new (wrap_i32 (r + 1)).

(** src/object.rs:437-441 [Ref::bump]: returns the old reference and the advanced one. *)
Definition ref_bump (r : Z) : option (Z * Z) :=
  match ref_next r with Some n => Some (r, n) | None => None end.

(** src/object.rs:444-452 [Ref::write]. *)
Definition write_ref (r : Z) (b : buf) : buf := extend (lit " 0 R") (push_int r b).

(** ** Rect *)

Record rect := mkRect { x1 : f32; y1 : f32; x2 : f32; y2 : f32 }.

(** src/object.rs:479-481 [Rect::to_quad_points]. *)
Definition to_quad_points (r : rect) : list f32 :=
  [x1 r; y1 r; x2 r; y1 r; x2 r; y2 r; x1 r; y2 r].

(** src/object.rs:484-501 [Rect::write]. *)
Definition write_rect (r : rect) (b : buf) : buf :=
  let b := push x5b b in
  let b := push_float (x1 r) b in
  let b := push x20 b in
  let b := push_float (y1 r) b in
  let b := push x20 b in
  let b := push_float (x2 r) b in
  let b := push x20 b in
  let b := push_float (y2 r) b in
  let b := push x5d b in
  with_limits (register_array_len 4) b.

(** ** Date *)

(** src/object.rs:513-531 [struct Date]. *)
Record date := mkDate {
  d_year : Z; d_month : option Z; d_day : option Z; d_hour : option Z;
  d_minute : option Z; d_second : option Z;
  d_off_hour : option Z; d_off_minute : Z
}.

(** [Ord::clamp]. *)
Definition clamp (lo hi v : Z) : Z := Z.min hi (Z.max lo v).

(** src/object.rs:537-548 [Date::new] ([year] is a u16). *)
Definition date_new (year : Z) : date := mkDate (Z.min year 9999) None None None None None None 0.

(** src/object.rs:552-600: the builder methods. *)
Inductive date_call :=
| DMonth (v : Z) | DDay (v : Z) | DHour (v : Z) | DMinute (v : Z) | DSecond (v : Z)
| DOffHour (v : Z) | DOffMinute (v : Z).

Definition date_apply (d : date) (c : date_call) : date :=
  let 'mkDate y mo da h mi s oh om := d in
  match c with
  | DMonth v => mkDate y (Some (clamp 1 12 v)) da h mi s oh om
  | DDay v => mkDate y mo (Some (clamp 1 31 v)) h mi s oh om
  | DHour v => mkDate y mo da (Some (Z.min v 23)) mi s oh om
  | DMinute v => mkDate y mo da h (Some (Z.min v 59)) s oh om
  | DSecond v => mkDate y mo da h mi (Some (Z.min v 59)) oh om
  | DOffHour v => mkDate y mo da h mi s (Some (clamp (-23) 23 v)) om
  | DOffMinute v => mkDate y mo da h mi s oh (Z.min v 59)
  end.

(** [{:+03}]: sign and at least two digits. *)
Definition dec_signed2 (v : Z) : bytes := (if v <? 0 then [x2d] else [x2b]) ++ dec_pad 2 (Z.abs v).

(** src/object.rs:609-629: the closure with [?] early exits, as the bytes written. *)
Definition date_body (d : date) : bytes :=
  dec_pad 4 (d_year d) ++
  match d_month d with None => [] | Some mo => dec_pad 2 mo ++
  match d_day d with None => [] | Some da => dec_pad 2 da ++
  match d_hour d with None => [] | Some h => dec_pad 2 h ++
  match d_minute d with None => [] | Some mi => dec_pad 2 mi ++
  match d_second d with None => [] | Some s => dec_pad 2 s ++
  match d_off_hour d with
  | None => []
  | Some oh =>
      if (oh =? 0) && (d_off_minute d =? 0) then [x5a]
      else dec_signed2 oh ++ [x27] ++ dec_pad 2 (d_off_minute d)
  end end end end end end.

(** src/object.rs:606-632 [Date::write]: no limit is registered. *)
Definition write_date (d : date) (b : buf) : buf :=
  extend (lit "(D:" ++ date_body d ++ lit ")") b.

(** ** Primitives *)

(** The implementors of [Primitive] (src/object.rs). *)
Inductive prim : Type :=
| PNull
| PBool (v : bool)
| PInt (v : Z)
| PReal (v : f32)
| PStr (s : bytes)
| PText (t : list Z)
| PTextLang (segs : list (langid * list Z))
| PName (s : bytes)
| PRef (r : Z)
| PRect (r : rect)
| PDate (d : date).

(** The constants [STARTS_WITH_DELIMITER] (src/object.rs:40, 55, 66, 99, 167, 256, 336,
    392, 445, 485, 604). *)
Definition starts_with_delimiter (p : prim) : bool :=
  match p with
  | PNull | PBool _ | PInt _ | PReal _ | PRef _ => false
  | _ => true
  end.

(** [Sealed::write] of each primitive: src/object.rs:43-49 (bool), 58-60 (i32), 69-71
    (f32), 395-397 (Null) and the functions above. *)
Definition write_prim (p : prim) (b : buf) : buf :=
  match p with
  | PNull => extend (lit "null") b
  | PBool v => extend (if v then lit "true" else lit "false") b
  | PInt v => push_int v b
  | PReal v => push_float v b
  | PStr s => write_str s b
  | PText t => write_text t b
  | PTextLang s => write_text_lang s b
  | PName s => write_name s b
  | PRef r => write_ref r b
  | PRect r => write_rect r b
  | PDate d => write_date d b
  end.

(** ** Obj *)

(** src/object.rs:638-644 [struct Obj] without the buffer, which is threaded explicitly. *)
Record objw := mkObjw { o_indirect : bool; o_indent : Z; o_pretty : bool; o_pad : bool }.

(** src/object.rs:649-662 [Obj::direct]. *)
Definition obj_direct (indent : Z) (pretty needs_padding : bool) : objw :=
  mkObjw false indent pretty needs_padding.

(** src/object.rs:666-676 [Obj::indirect]. *)
Definition obj_indirect (id : Z) (pretty : bool) (b : buf) : objw * buf :=
  (mkObjw true 0 pretty false, extend (lit " 0 obj" ++ [x0a]) (push_int id b)).

(** The trailer written for indirect objects (src/object.rs:706-712, 849-855, 1025-1031). *)
Definition endobj (indirect pretty : bool) (b : buf) : buf :=
  if indirect then
    let b := extend ([x0a] ++ lit "endobj" ++ [x0a]) b in
    if pretty then extend [x0a] b else b
  else b.

(** src/object.rs:680-713 [Obj::primitive]. *)
Definition obj_primitive (w : objw) (p : prim) (b : buf) : buf :=
  let ends_with_delimiter :=
    match last_byte (inner b) with Some c => is_delimiter_character c | None => false end in
  let b := if o_pad w && negb (starts_with_delimiter p) && negb ends_with_delimiter
           then extend [x20] b else b in
  endobj (o_indirect w) (o_pretty w) (write_prim p b).

(** ** Array *)

(** src/object.rs:765-771 [struct Array]; the i32 counter [len] is unbounded here
    (it overflows only with 2^31 items in one array). *)
Record arrw := mkArrw { a_indirect : bool; a_indent : Z; a_pretty : bool; a_len : Z }.

(** src/object.rs:773-782. *)
Definition array_start (w : objw) (b : buf) : arrw * buf :=
  (mkArrw (o_indirect w) (o_indent w) (o_pretty w) 0, push x5b b).

(** src/object.rs:799-814 [Array::push]. *)
Definition array_push (a : arrw) (b : buf) : objw * arrw * buf :=
  let '(needs_padding, b) :=
    if negb (a_len a =? 0) then (if a_pretty a then (false, push x20 b) else (true, b))
    else (false, b) in
  (obj_direct (a_indent a) (a_pretty a) needs_padding,
   mkArrw (a_indirect a) (a_indent a) (a_pretty a) (a_len a + 1), b).

(** src/object.rs:844-856 [Drop for Array]. *)
Definition array_drop (a : arrw) (b : buf) : buf :=
  endobj (a_indirect a) (a_pretty a)
    (push x5d (with_limits (register_array_len (a_len a)) b)).

(** ** Dict *)

(** src/object.rs:927-933 [struct Dict]. *)
Record dictw := mkDictw { d_indirect : bool; d_indent : Z; d_pretty : bool; d_len : Z }.

(** [u8::saturating_add]. *)
Definition sat_add_u8 (a b : Z) : Z := Z.min 255 (a + b).

(** src/object.rs:935-944. *)
Definition dict_start (w : objw) (b : buf) : dictw * buf :=
  (mkDictw (o_indirect w) (sat_add_u8 (o_indent w) 2) (o_pretty w) 0, extend [x3c; x3c] b).

Definition spaces (n : Z) : bytes := repeat x20 (Z.to_nat n).

(** src/object.rs:961-984 [Dict::insert]. *)
Definition dict_insert (key : bytes) (d : dictw) (b : buf) : objw * dictw * buf :=
  let d := mkDictw (d_indirect d) (d_indent d) (d_pretty d) (d_len d + 1) in
  let b := if d_pretty d then extend (spaces (d_indent d)) (push x0a b) else b in
  let b := write_name key b in
  let '(needs_padding, b) := if d_pretty d then (false, push x20 b) else (true, b) in
  (obj_direct (d_indent d) (d_pretty d) needs_padding, d, b).

(** src/object.rs:1013-1033 [Drop for Dict].  [self.indent - 2] is a u8 subtraction;
    [d_indent] is at least 2 in every dictionary ([dict_start]), so it cannot wrap. *)
Definition dict_drop (d : dictw) (b : buf) : buf :=
  let b := with_limits (register_dict_entries (d_len d)) b in
  let b := if negb (d_len d =? 0) && d_pretty d
           then extend (spaces (d_indent d - 2)) (push x0a b) else b in
  endobj (d_indirect d) (d_pretty d) (extend [x3e; x3e] b).

(** ** Object trees

    The writers borrow the buffer mutably, so at any time only the innermost open writer
    can be used and a writer is dropped before its parent is used again: the history of
    calls that writes one object is exactly a finite tree.  [write_obj] performs
    the calls for such a tree. *)
Inductive obj : Type :=
| OPrim (p : prim)
| OArray (items : list obj)
| ODict (entries : list (bytes * obj)).

Fixpoint write_obj (o : obj) (w : objw) (b : buf) {struct o} : buf :=
  match o with
  | OPrim p => obj_primitive w p b
  | OArray items =>
      let '(a, b) := array_start w b in
      let '(a, b) :=
        (fix go (l : list obj) (a : arrw) (b : buf) {struct l} : arrw * buf :=
           match l with
           | [] => (a, b)
           | it :: l =>
               let '(w', a, b) := array_push a b in
               go l a (write_obj it w' b)
           end) items a b in
      array_drop a b
  | ODict entries =>
      let '(d, b) := dict_start w b in
      let '(d, b) :=
        (fix go (l : list (bytes * obj)) (d : dictw) (b : buf) {struct l} : dictw * buf :=
           match l with
           | [] => (d, b)
           | (k, v) :: l =>
               let '(w', d, b) := dict_insert k d b in
               go l d (write_obj v w' b)
           end) entries d b in
      dict_drop d b
  end.

(** The entries of an open dictionary writer (the inner loop of [write_obj]); also used
    for stream dictionaries and trailers. *)
Fixpoint write_entries (l : list (bytes * obj)) (d : dictw) (b : buf) : dictw * buf :=
  match l with
  | [] => (d, b)
  | (k, v) :: l =>
      let '(w', d, b) := dict_insert k d b in
      write_entries l d (write_obj v w' b)
  end.

Fixpoint write_items (l : list obj) (a : arrw) (b : buf) : arrw * buf :=
  match l with
  | [] => (a, b)
  | it :: l =>
      let '(w', a, b) := array_push a b in
      write_items l a (write_obj it w' b)
  end.

(** ** Stream *)

(** src/object.rs:1118-1130 [Stream::start]: [None] is the panic for data longer than
    [i32::MAX].  The object writer comes from [Chunk::indirect], so it is indirect. *)
Definition stream_start (w : objw) (data : bytes) (b : buf) : option (dictw * buf) :=
  let '(d, b) := dict_start w b in
  if blen data <=? i32_max then
    let '(w', d, b) := dict_insert (lit "Length") d b in
    Some (d, obj_primitive w' (PInt (blen data)) b)
  else None.

(** src/object.rs:1148-1166 [Drop for Stream]. *)
Definition stream_drop (data : bytes) (d : dictw) (b : buf) : buf :=
  let b := with_limits (register_dict_entries (d_len d)) b in
  let b := if d_pretty d then extend [x0a] b else b in
  let b := extend [x3e; x3e] b in
  let b := extend ([x0a] ++ lit "stream" ++ [x0a]) b in
  let b := extend data b in
  let b := extend ([x0a] ++ lit "endstream") b in
  let b := extend ([x0a] ++ lit "endobj" ++ [x0a]) b in
  if d_pretty d then extend [x0a] b else b.

(** A whole stream object: start, extra entries, drop. *)
Definition write_stream (w : objw) (entries : list (bytes * obj)) (data : bytes) (b : buf)
  : option buf :=
  match stream_start w data b with
  | None => None
  | Some (d, b) => let '(d, b) := write_entries entries d b in Some (stream_drop data d b)
  end.

(** src/object.rs:1171-1214 [Filter] and [Filter::to_name]. *)
Inductive filter :=
| AsciiHexDecode | Ascii85Decode | LzwDecode | FlateDecode | RunLengthDecode
| CcittFaxDecode | Jbig2Decode | DctDecode | JpxDecode | CryptFilter.

Definition filter_name (f : filter) : bytes :=
  match f with
  | AsciiHexDecode => lit "ASCIIHexDecode"
  | Ascii85Decode => lit "ASCII85Decode"
  | LzwDecode => lit "LZWDecode"
  | FlateDecode => lit "FlateDecode"
  | RunLengthDecode => lit "RunLengthDecode"
  | CcittFaxDecode => lit "CCITTFaxDecode"
  | Jbig2Decode => lit "JBIG2Decode"
  | DctDecode => lit "DCTDecode"
  | JpxDecode => lit "JPXDecode"
  | CryptFilter => lit "Crypt"
  end.
