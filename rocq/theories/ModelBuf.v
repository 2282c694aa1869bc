(** Model of src/buf.rs: [Buf] and [Limits]. *)

From Coq Require Import ZArith List Lia Bool.
From Verif Require Import Bytes ModelFloat.
Import ListNotations.
Local Open Scope Z_scope.

(** src/buf.rs:147-156 [struct Limits].  [usize] fields are unbounded integers. *)
Record limits := mkLimits {
  l_int : Z;
  l_real : f32;
  l_name : Z;
  l_str : Z;
  l_array : Z;
  l_dict : Z
}.

(** src/buf.rs:158-162 [Limits::new] (all zero). *)
Definition limits0 : limits := mkLimits 0 f32_zero 0 0 0 0.

(** [i32::abs] in the release profile: wraps at [i32::MIN] (the debug profile panics
    there instead). *)
Definition abs_i32 (v : Z) : Z := wrap_i32 (Z.abs v).

(** src/buf.rs:194-196 *)
Definition register_int (v : Z) (l : limits) : limits :=
  mkLimits (Z.max (l_int l) (abs_i32 v)) (l_real l) (l_name l) (l_str l) (l_array l) (l_dict l).
(** src/buf.rs:198-200 *)
Definition register_real (v : f32) (l : limits) : limits :=
  mkLimits (l_int l) (f32_max (l_real l) (f32_abs v)) (l_name l) (l_str l) (l_array l) (l_dict l).
(** src/buf.rs:202-204 *)
Definition register_name_len (n : Z) (l : limits) : limits :=
  mkLimits (l_int l) (l_real l) (Z.max (l_name l) n) (l_str l) (l_array l) (l_dict l).
(** src/buf.rs:206-208 *)
Definition register_str_len (n : Z) (l : limits) : limits :=
  mkLimits (l_int l) (l_real l) (l_name l) (Z.max (l_str l) n) (l_array l) (l_dict l).
(** src/buf.rs:210-212 *)
Definition register_array_len (n : Z) (l : limits) : limits :=
  mkLimits (l_int l) (l_real l) (l_name l) (l_str l) (Z.max (l_array l) n) (l_dict l).
(** src/buf.rs:214-216 *)
Definition register_dict_entries (n : Z) (l : limits) : limits :=
  mkLimits (l_int l) (l_real l) (l_name l) (l_str l) (l_array l) (Z.max (l_dict l) n).

(** src/buf.rs:218-227 [Limits::merge]. *)
Definition merge (l o : limits) : limits :=
  register_dict_entries (l_dict o)
    (register_array_len (l_array o)
       (register_str_len (l_str o)
          (register_name_len (l_name o)
             (register_real (l_real o)
                (register_int (l_int o) l))))).

(** src/buf.rs:7-10 [struct Buf]. *)
Record buf := mkBuf { inner : bytes; lims : limits }.

(** src/buf.rs:13-22 [Buf::new], [Buf::with_capacity] (capacity has no observable effect). *)
Definition buf_new : buf := mkBuf [] limits0.

(** [extend]/[push] of raw bytes, src/buf.rs:86-88 and 135-145. *)
Definition extend (s : bytes) (b : buf) : buf := mkBuf (inner b ++ s) (lims b).
Definition push (c : byte) (b : buf) : buf := extend [c] b.

(** Apply a [Limits::register_*] to the buffer's limits. *)
Definition with_limits (f : limits -> limits) (b : buf) : buf := mkBuf (inner b) (f (lims b)).

(** src/buf.rs:45-48 *)
Definition push_int (v : Z) (b : buf) : buf :=
  extend (dec_i v) (with_limits (register_int v) b).

(** src/buf.rs:63-77 *)
Definition push_decimal (v : f32) (b : buf) : buf :=
  let b := with_limits (register_real v) b in
  if f32_eqb v f32_zero
     || (f32_ltb f32_1em6 (f32_abs v) && f32_ltb (f32_abs v) f32_1e12)
  then extend (ryu_f32 v) b
  else extend (display_f32 v) b.

(** src/buf.rs:51-59 *)
Definition push_float (v : f32) (b : buf) : buf :=
  if f32_eqb (f32_of_i32 (f32_as_i32 v)) v then push_int (f32_as_i32 v) b
  else push_decimal v b.

(** src/buf.rs:80-83 [Buf::extend_buf]: [self] is the second argument. *)
Definition extend_buf (other self : buf) : buf :=
  mkBuf (inner self ++ inner other) (merge (lims self) (lims other)).

(** src/buf.rs:92-98 the local function [hex] (argument below 16). *)
Definition hex_digit (n : Z) : byte := if n <? 10 then zb (48 + n) else zb (65 + (n - 10)).

(** src/buf.rs:91-102 [Buf::push_hex], as the two bytes pushed. *)
Definition hex2 (c : byte) : bytes := [hex_digit (Z.shiftr (bz c) 4); hex_digit (Z.land (bz c) 15)].

(** src/buf.rs:105-108 [Buf::push_hex_u16], as the four bytes pushed. *)
Definition hex4 (v : Z) : bytes := hex2 (zb (Z.shiftr v 8)) ++ hex2 (zb v).

(** src/buf.rs:111-119 [Buf::push_octal], as the three bytes pushed. *)
Definition octal3 (c : byte) : bytes :=
  [zb (48 + Z.shiftr (bz c) 6); zb (48 + Z.land (Z.shiftr (bz c) 3) 7); zb (48 + Z.land (bz c) 7)].
