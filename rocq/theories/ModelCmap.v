(** Model of src/font.rs:850-1050: ToUnicode character maps. *)

From Coq Require Import ZArith List Lia Bool.
From Verif Require Import Bytes ModelFloat ModelBuf ModelObject.
Import ListNotations.
Local Open Scope Z_scope.

(** src/font.rs:1000-1032 [GlyphId]: [u8] or [u16]. *)
Inductive glyph_type := GU8 | GU16.
Definition glyph_max (g : glyph_type) : Z := match g with GU8 => 255 | GU16 => 65535 end.
Definition glyph_push (g : glyph_type) (v : Z) (b : buf) : buf :=
  match g with GU8 => extend (hex2 (zb v)) b | GU16 => extend (hex4 v) b end.

(** src/font.rs:835-848 [WMode]. *)
Inductive wmode := WHorizontal | WVertical.
Definition wmode_int (m : wmode) : Z := match m with WHorizontal => 0 | WVertical => 1 end.

(** src/font.rs:1035-1042 [SystemInfo]. *)
Record system_info := mkSystemInfo { si_registry : bytes; si_ordering : bytes; si_supplement : Z }.

(** src/font.rs:851-856 [UnicodeCmap]; of [mappings] only the bytes are used. *)
Record cmap := mkCmap { cm_buf : buf; cm_mappings : buf; cm_count : Z; cm_type : glyph_type }.

Definition line (s : bytes) (b : buf) : buf := extend (s ++ [x0a]) b.

(** src/font.rs:870-935 [with_writing_mode]. *)
Definition cmap_new (g : glyph_type) (name : bytes) (info : system_info) (mode : wmode) : cmap :=
  let b := buf_new in
  let b := line (lit "%!PS-Adobe-3.0 Resource-CMap") b in
  let b := line (lit "%%DocumentNeededResources: procset CIDInit") b in
  let b := line (lit "%%IncludeResource: procset CIDInit") b in
  let b := extend (lit "%%BeginResource: CMap ") b in
  let b := push x0a (extend name b) in
  let b := extend (lit "%%Title: (") b in
  let b := push x20 (extend name b) in
  let b := push x20 (extend (si_registry info) b) in
  let b := push x20 (extend (si_ordering info) b) in
  let b := push_int (si_supplement info) b in
  let b := line (lit ")") b in
  let b := line (lit "%%Version: 1") b in
  let b := line (lit "%%EndComments") b in
  let b := line (lit "/CIDInit /ProcSet findresource begin") b in
  let b := line (lit "12 dict begin") b in
  let b := line (lit "begincmap") b in
  let b := line (lit "/CIDSystemInfo 3 dict dup begin") b in
  let b := line (lit " def") (write_prim (PStr (si_registry info)) (extend (lit "    /Registry ") b)) in
  let b := line (lit " def") (write_prim (PStr (si_ordering info)) (extend (lit "    /Ordering ") b)) in
  let b := line (lit " def") (write_prim (PInt (si_supplement info)) (extend (lit "    /Supplement ") b)) in
  let b := line (lit "end def") b in
  let b := line (lit " def") (write_prim (PName name) (extend (lit "/CMapName ") b)) in
  let b := line (lit "/CMapVersion 1 def") b in
  let b := line (lit "/CMapType 0 def") b in
  let b := line (lit " def") (push_int (wmode_int mode) (extend (lit "/WMode ") b)) in
  let b := line (lit "1 begincodespacerange") b in
  let b := glyph_push g 0 (push x3c b) in
  let b := extend (lit "> <") b in
  let b := line (lit ">") (glyph_push g (glyph_max g) b) in
  let b := line (lit "endcodespacerange") b in
  mkCmap b buf_new 0 g.

(** src/font.rs:983-993 [flush_range]. *)
Definition cmap_flush (c : cmap) : cmap :=
  let b := if 0 <? cm_count c
           then line (lit "endbfchar") (extend (inner (cm_mappings c)) (line (lit " beginbfchar") (push_int (cm_count c) (cm_buf c))))
           else cm_buf c in
  mkCmap b (mkBuf [] (lims (cm_mappings c))) 0 (cm_type c).

(** src/font.rs:943-965 [pair_with_multiple]; the codepoints are Unicode scalar values. *)
Definition cmap_pair (glyph : Z) (codepoints : list Z) (c : cmap) : cmap :=
  let m := glyph_push (cm_type c) glyph (push x3c (cm_mappings c)) in
  let m := extend (lit "> <") m in
  let m := fold_left (fun m c => fold_left (fun m part => extend (hex4 part) m) (utf16 c) m) codepoints m in
  let m := line (lit ">") m in
  let c := mkCmap (cm_buf c) m (cm_count c + 1) (cm_type c) in
  if 100 <=? cm_count c then cmap_flush c else c.

(** src/font.rs:968-981 [finish]. *)
Definition cmap_finish (c : cmap) : buf :=
  let b := cm_buf (cmap_flush c) in
  let b := line (lit "endcmap") b in
  let b := line (lit "CMapName currentdict /CMap defineresource pop") b in
  let b := line (lit "end") b in
  let b := line (lit "end") b in
  let b := line (lit "%%EndResource") b in
  extend (lit "%%EOF") b.

(** A map built with the given calls ([pair] is the case of one codepoint, src/font.rs:938-940). *)
Definition cmap_build (g : glyph_type) (name : bytes) (info : system_info) (mode : wmode) (pairs : list (Z * list Z)) : buf :=
  cmap_finish (fold_left (fun c p => cmap_pair (fst p) (snd p) c) pairs (cmap_new g name info mode)).
