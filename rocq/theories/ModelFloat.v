(** Model of [f32] and of the number formatting used by src/buf.rs.

    Rust's [f32] is IEEE 754 binary32.  A finite value is [(-1)^s * m * 2^e] with the
    usual canonical constraints ([f32_valid]).  NaN payloads and signs are not
    distinguished (no code in /repo observes them). *)

From Coq Require Import ZArith List Lia Bool.
From Verif Require Import Bytes.
Import ListNotations.
Local Open Scope Z_scope.

Inductive f32 : Type :=
| FNan
| FInf (neg : bool)
| FFin (neg : bool) (m e : Z).

(** Canonical binary32 triples: 24-bit significand, exponent range, and subnormals
    (including zero) only at the smallest exponent. *)
Definition f32_valid (v : f32) : bool :=
  match v with
  | FNan | FInf _ => true
  | FFin _ m e =>
      (0 <=? m) && (m <? 2 ^ 24) && (-149 <=? e) && (e <=? 104) &&
      ((2 ^ 23 <=? m) || (e =? -149))
  end.

Definition f32_finite (v : f32) : bool :=
  match v with FFin _ _ _ => true | _ => false end.

(** The value in units of 2^-149 (the smallest subnormal): an exact integer. *)
Definition f32_units (v : f32) : Z :=
  match v with
  | FFin neg m e => (if neg then -1 else 1) * (m * 2 ^ (e + 149))
  | _ => 0
  end.

(** Decoding of the 32-bit interchange format; not used by the model, only to show that
    [f32_valid] describes exactly the values of Rust's type (see ProofFloat.v). *)
Definition f32_of_bits (w : Z) : f32 :=
  let s := 2 ^ 31 <=? w in
  let ex := (w / 2 ^ 23) mod 256 in
  let fr := w mod 2 ^ 23 in
  if ex =? 255 then (if fr =? 0 then FInf s else FNan)
  else if ex =? 0 then FFin s fr (-149)
  else FFin s (2 ^ 23 + fr) (ex - 150).

Definition i32_min : Z := - 2 ^ 31.
Definition i32_max : Z := 2 ^ 31 - 1.
Definition in_i32 (z : Z) : bool := (i32_min <=? z) && (z <=? i32_max).

(** Two's complement wrap-around to [i32] (release profile arithmetic). *)
Definition wrap_i32 (z : Z) : Z := (z + 2 ^ 31) mod 2 ^ 32 - 2 ^ 31.

(** Rust [value as i32] on f32 (language reference: truncation toward zero, saturating,
    NaN gives 0).  Used at src/buf.rs:55-56. *)
Definition f32_as_i32 (v : f32) : Z :=
  match v with
  | FNan => 0
  | FInf neg => if neg then i32_min else i32_max
  | FFin neg m e =>
      let a := if 0 <=? e then m * 2 ^ e else m / 2 ^ (- e) in
      let t := if neg then - a else a in
      Z.max i32_min (Z.min i32_max t)
  end.

(** Rust [i as f32] on i32 (round to nearest, ties to even).  Used at src/buf.rs:55. *)
Definition f32_of_i32 (k : Z) : f32 :=
  let a := Z.abs k in
  if a =? 0 then FFin false 0 (-149)
  else
    let e := Z.log2 a - 23 in
    if e <=? 0 then FFin (k <? 0) (a * 2 ^ (- e)) e
    else
      let q := a / 2 ^ e in
      let r := a mod 2 ^ e in
      let up := (2 ^ (e - 1) <? r) || ((2 ^ (e - 1) =? r) && Z.odd q) in
      let q' := if up then q + 1 else q in
      if q' =? 2 ^ 24 then FFin (k <? 0) (2 ^ 23) (e + 1) else FFin (k <? 0) q' e.

(** IEEE equality: NaN differs from everything, +0 = -0. *)
Definition f32_eqb (a b : f32) : bool :=
  match a, b with
  | FNan, _ | _, FNan => false
  | FInf s, FInf t => Bool.eqb s t
  | FFin _ _ _, FFin _ _ _ => f32_units a =? f32_units b
  | _, _ => false
  end.

(** IEEE [<]; false when an operand is NaN. *)
Definition f32_ltb (a b : f32) : bool :=
  match a, b with
  | FNan, _ | _, FNan => false
  | FInf s, FInf t => s && negb t
  | FInf s, FFin _ _ _ => s
  | FFin _ _ _, FInf t => negb t
  | FFin _ _ _, FFin _ _ _ => f32_units a <? f32_units b
  end.

Definition f32_leb (a b : f32) : bool := f32_ltb a b || f32_eqb a b.

Definition f32_abs (v : f32) : f32 :=
  match v with
  | FNan => FNan
  | FInf _ => FInf false
  | FFin _ m e => FFin false m e
  end.

(** [f32::max]: the other operand if one is NaN, else the larger one. *)
Definition f32_max (a b : f32) : f32 :=
  match a, b with
  | FNan, _ => b
  | _, FNan => a
  | _, _ => if f32_ltb a b then b else a
  end.

Definition f32_zero : f32 := FFin false 0 (-149).

(** The f32 literals [1e-6] and [1e12] of src/buf.rs:68 (nearest binary32 values; see
    the examples in ProofFloat.v). *)
Definition f32_1em6 : f32 := FFin false 8796093 (-43).
Definition f32_1e12 : f32 := FFin false 15258789 16.

(** ** Decimal printing *)

(** Decimal digits of a non-negative integer, no leading zeros ([itoa], [std] [{}]).
    [fuel] bounds the recursion; [dec_u] supplies enough of it for every input. *)
Fixpoint dec_aux (fuel : nat) (n : Z) (acc : bytes) : bytes :=
  match fuel with
  | O => acc
  | S f =>
      let acc' := zb (48 + n mod 10) :: acc in
      if n <? 10 then acc' else dec_aux f (n / 10) acc'
  end.

Definition dec_u (n : Z) : bytes := dec_aux (S (Z.to_nat (Z.log2 n))) n [].

(** Signed decimal: what [itoa::Buffer::format] prints for an [i32] (dependency, modelled
    by its documented result; src/buf.rs:48). *)
Definition dec_i (n : Z) : bytes := if n <? 0 then x2d :: dec_u (- n) else dec_u n.

(** [{:0w}] for an unsigned integer: left padded with zeros to width [w]. *)
Definition dec_pad (w : nat) (n : Z) : bytes :=
  let d := dec_u n in repeat x30 (w - List.length d) ++ d.

(** Shortest decimal digits of a finite non-zero f32 [m * 2^e].

    This models the digit generation of the dependencies [ryu] and [core::fmt] (Grisu
    with Dragon fallback), both documented to print the shortest decimal that reads
    back as the same float, the closest such decimal if there are several.  It is an
    executable search: for decreasing [k] try the multiples of [10^k] next to the value,
    and take the closest one that lies in the rounding interval of the float.
    Everything is scaled by [2^151], so that the interval ends are integers. *)
Definition interval_ok (m lo hi n u c : Z) : bool :=
  (* c*u within [lo,hi]; the ends belong to the interval iff the significand is even *)
  if Z.even m then (lo <=? c * u) && (c * u <=? hi) else (lo <? c * u) && (c * u <? hi).

Definition pick (m lo v hi u : Z) : option Z :=
  let q := v / u in
  let r := v mod u in
  let '(near, far) :=
    if (2 * r <? u) || ((2 * r =? u) && Z.even q) then (q, q + 1) else (q + 1, q) in
  if interval_ok m lo hi v u near then Some near
  else if interval_ok m lo hi v u far then Some far
  else None.

(** Lower end of the rounding interval, in quarter units of the last place: the gap below
    a power of two is half as wide. *)
Definition lo4 (m e : Z) : Z := if (m =? 2 ^ 23) && (-149 <? e) then 4 * m - 1 else 4 * m - 2.

Definition try_k (m e k : Z) : option Z :=
  let p := 2 ^ (e + 149) in
  let t := 10 ^ Z.max 0 (- k) in
  let u := 2 ^ 151 * 10 ^ Z.max 0 k in
  pick m (lo4 m e * p * t) (4 * m * p * t) ((4 * m + 2) * p * t) u.

Fixpoint shortest_from (fuel : nat) (m e k : Z) : Z * Z :=
  match try_k m e k with
  | Some c => (c, k)
  | None =>
      match fuel with
      | O => (0, 0)
      | S f => shortest_from f m e (k - 1)
      end
  end.

(** Digits [c] and exponent [k] with [c * 10^k] the shortest decimal.  Starting at
    [10^39] (above every f32) and going down to [10^-149] (where every f32 is exact). *)
Definition shortest (m e : Z) : Z * Z := shortest_from 188 m e 39.

(** [ryu::Buffer::format] for a finite f32 (crate ryu, pretty/mod.rs [format32]; the
    dependency's documented layout, including its scientific notation branches). *)
Definition ryu_fin (neg : bool) (m e : Z) : bytes :=
  let sign := if neg then [x2d] else [] in
  if m =? 0 then sign ++ lit "0.0"
  else
    let '(c, k) := shortest m e in
    let d := dec_u c in
    let len := Z.of_nat (List.length d) in
    let kk := len + k in
    sign ++
    (if (0 <=? k) && (kk <=? 13) then d ++ repeat x30 (Z.to_nat k) ++ lit ".0"
     else if (0 <? kk) && (kk <=? 13) then
       firstn (Z.to_nat kk) d ++ lit "." ++ skipn (Z.to_nat kk) d
     else if (-6 <? kk) && (kk <=? 0) then lit "0." ++ repeat x30 (Z.to_nat (- kk)) ++ d
     else if len =? 1 then d ++ lit "e" ++ dec_i (kk - 1)
     else firstn 1 d ++ lit "." ++ skipn 1 d ++ lit "e" ++ dec_i (kk - 1)).

(** [{value}] ([core::fmt::Display] for f32): never scientific. *)
Definition display_f32 (v : f32) : bytes :=
  match v with
  | FNan => lit "NaN"
  | FInf neg => (if neg then [x2d] else []) ++ lit "inf"
  | FFin neg m e =>
      let sign := if neg then [x2d] else [] in
      if m =? 0 then sign ++ lit "0"
      else
        let '(c, k) := shortest m e in
        let d := dec_u c in
        let len := Z.of_nat (List.length d) in
        let kk := len + k in
        sign ++
        (if kk <=? 0 then lit "0." ++ repeat x30 (Z.to_nat (- kk)) ++ d
         else if len <=? kk then d ++ repeat x30 (Z.to_nat (kk - len))
         else firstn (Z.to_nat kk) d ++ lit "." ++ skipn (Z.to_nat kk) d)
  end.

Definition ryu_f32 (v : f32) : bytes :=
  match v with FFin neg m e => ryu_fin neg m e | _ => display_f32 v end.
