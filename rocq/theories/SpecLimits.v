(** Specification: the sizes of everything a caller writes, and their maxima. *)

From Coq Require Import ZArith List Bool.
From Verif Require Import Bytes ModelFloat ModelBuf ModelObject ModelChunk SpecLex SpecObj SpecMeans SpecChunk.
Import ListNotations.
Local Open Scope Z_scope.

(** A real whose value is an integer that fits an i32 counts as that integer (2^31, which
    is written as 2147483647, counts as that: property C03). *)
Definition real_as_int (v : f32) : option Z :=
  if f32_finite v && (f32_units v mod 2 ^ 149 =? 0) &&
     ((i32_min <=? f32_units v / 2 ^ 149) && (f32_units v / 2 ^ 149 <=? 2 ^ 31))
  then Some (Z.min i32_max (f32_units v / 2 ^ 149)) else None.

Definition real_ints (v : f32) : list Z := match real_as_int v with Some z => [z] | None => [] end.
Definition real_reals (v : f32) : list f32 := match real_as_int v with Some z => [] | None => [v] end.

Definition rect_sides (r : rect) : list f32 := [x1 r; y1 r; x2 r; y2 r].

(** All integers, reals, name lengths (keys included), array lengths and dictionary sizes in a
    tree. *)
Definition prim_ints (p : prim) : list Z :=
  match p with
  | PInt z => [z]
  | PReal v => real_ints v
  | PRef r => [r]
  | PRect r => flat_map real_ints (rect_sides r)
  | _ => []
  end.
Definition prim_reals (p : prim) : list f32 :=
  match p with
  | PReal v => real_reals v
  | PRect r => flat_map real_reals (rect_sides r)
  | _ => []
  end.

Fixpoint obj_ints (o : obj) : list Z :=
  match o with
  | OPrim p => prim_ints p
  | OArray l => flat_map obj_ints l
  | ODict l => flat_map (fun e => obj_ints (snd e)) l
  end.
Fixpoint obj_reals (o : obj) : list f32 :=
  match o with
  | OPrim p => prim_reals p
  | OArray l => flat_map obj_reals l
  | ODict l => flat_map (fun e => obj_reals (snd e)) l
  end.
Fixpoint obj_names (o : obj) : list Z :=
  match o with
  | OPrim (PName s) => [blen s]
  | OPrim _ => []
  | OArray l => flat_map obj_names l
  | ODict l => flat_map (fun e => blen (fst e) :: obj_names (snd e)) l
  end.
Fixpoint obj_arrays (o : obj) : list Z :=
  match o with
  | OPrim (PRect _) => [4]
  | OPrim _ => []
  | OArray l => Z.of_nat (List.length l) :: flat_map obj_arrays l
  | ODict l => flat_map (fun e => obj_arrays (snd e)) l
  end.
Fixpoint obj_dicts (o : obj) : list Z :=
  match o with
  | OPrim _ => []
  | OArray l => flat_map obj_dicts l
  | ODict l => Z.of_nat (List.length l) :: flat_map (fun e => obj_dicts (snd e)) l
  end.

(** The lengths of all strings a reader finds in a value. *)
Fixpoint val_strings (v : val) : list Z :=
  match v with
  | VStr s => [blen s]
  | VArr l => flat_map val_strings l
  | VDict l => flat_map (fun e => val_strings (snd e)) l
  | _ => []
  end.

(** All strings of the tree are byte strings or printable ASCII text. *)
Definition printable_ascii (t : list Z) : bool := forallb (fun c => (32 <=? c) && (c <=? 126)) t.
Fixpoint strings_plain (o : obj) : bool :=
  match o with
  | OPrim (PText t) => printable_ascii t
  | OPrim (PTextLang _ | PDate _) => false
  | OPrim _ => true
  | OArray l => forallb strings_plain l
  | ODict l => forallb (fun e => strings_plain (snd e)) l
  end.

(** Largest of a list, at least [z]. *)
Definition at_least (z : Z) (l : list Z) : Z := fold_left Z.max l z.

(** No i32::MIN among the integers. *)
Definition no_i32_min (l : list Z) : bool := forallb (fun z => negb (z =? i32_min)) l.

(** ** Limits as such *)

(** Values that occur as limits: non-negative, and a real that is not NaN. *)
Definition limit_real (r : f32) : bool :=
  f32_valid r && match r with FNan => false | FInf s => negb s | FFin s _ _ => negb s end.
Definition limits_ok (l : limits) : bool :=
  (0 <=? l_int l) && (l_int l <=? i32_max) && limit_real (l_real l) && (0 <=? l_name l) &&
  (0 <=? l_str l) && (0 <=? l_array l) && (0 <=? l_dict l).

(** Field-wise comparison. *)
Definition limits_le (a b : limits) : Prop :=
  l_int a <= l_int b /\ f32_leb (l_real a) (l_real b) = true /\ l_name a <= l_name b /\
  l_str a <= l_str b /\ l_array a <= l_array b /\ l_dict a <= l_dict b.

(** ** Sizes of chunk items: the id, the object, and for a stream the implied /Length entry. *)
Definition stream_obj (es : list (bytes * obj)) (data : bytes) : obj :=
  ODict ((lit "Length", OPrim (PInt (blen data))) :: es).
Definition body_obj (b : body) : obj :=
  match b with BObj o => o | BStream es data => stream_obj es data end.
Definition item_ints (it : item) : list Z := fst it :: obj_ints (body_obj (snd it)).
Definition item_sizes (sz : obj -> list Z) (it : item) : list Z := sz (body_obj (snd it)).

(** The limits merged in from elsewhere are limits. *)
Fixpoint merges_ok (h : hist) : Prop :=
  match h with
  | HNew _ => True
  | HObject h _ _ | HStream h _ _ _ => merges_ok h
  | HExtend a b | HRenumber a b _ _ _ => merges_ok a /\ merges_ok b
  | HMerge h l => merges_ok h /\ limits_ok l = true
  end.

(** No limits merged in from elsewhere, and no renumbering (which also keeps the old ids). *)
Fixpoint plain_hist (h : hist) : Prop :=
  match h with
  | HNew _ => True
  | HObject h _ _ | HStream h _ _ _ => plain_hist h
  | HExtend a b => plain_hist a /\ plain_hist b
  | HMerge _ _ | HRenumber _ _ _ _ _ => False
  end.

(** ** The string lengths that count towards the limit: bytes for byte strings, bytes of the text in UTF-8 for text, nothing for dates. *)
Definition sum (l : list Z) : Z := fold_right Z.add 0 l.
Definition utf8_size (c : Z) : Z := if c <? 128 then 1 else if c <? 2048 then 2 else if c <? 65536 then 3 else 4.
Definition text_size (t : list Z) : Z := sum (map utf8_size t).
Definition code_size (l : langid) : Z := match region l with None => 2 | Some _ => 4 end.
(** The language code counts with two delimiters. *)
Definition segment_size (seg : langid * list Z) : Z := code_size (fst seg) + 2 + text_size (snd seg).
Fixpoint obj_strings (o : obj) : list Z :=
  match o with
  | OPrim (PStr s) => [blen s]
  | OPrim (PText t) => [text_size t]
  | OPrim (PTextLang segs) => [sum (map segment_size segs)]
  | OPrim _ => []
  | OArray l => flat_map obj_strings l
  | ODict l => flat_map (fun e => obj_strings (snd e)) l
  end.
(** Number of characters below U+0080, and from U+0800 to U+FFFF. *)
Definition count (p : Z -> bool) (t : list Z) : Z := Z.of_nat (List.length (List.filter p t)).
Definition ascii_chars : list Z -> Z := count (fun c => c <? 128).
Definition wide_chars : list Z -> Z := count (fun c => (2048 <=? c) && (c <? 65536)).
