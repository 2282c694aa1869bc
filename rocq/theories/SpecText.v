(** Specification: text strings (ISO 32000-1, 7.9.2.2), language escapes, dates (7.9.4),
    and decimal-to-binary32 rounding (IEEE 754). *)

From Coq Require Import ZArith List Bool.
From Verif Require Import Bytes SpecLex ModelFloat.
Import ListNotations.
Local Open Scope Z_scope.

(** ** UTF-16BE *)

Fixpoint units16 (s : bytes) : option (list Z) :=
  match s with
  | [] => Some []
  | a :: b :: r => option_map (cons (256 * bz a + bz b)) (units16 r)
  | _ => None
  end.

Definition hi_surrogate (u : Z) : bool := (55296 <=? u) && (u <=? 56319).
Definition lo_surrogate (u : Z) : bool := (56320 <=? u) && (u <=? 57343).

(** Scalar values of a sequence of UTF-16 code units; [None] on unpaired surrogates. *)
Fixpoint utf16_decode (us : list Z) : option (list Z) :=
  match us with
  | [] => Some []
  | u :: r =>
      if hi_surrogate u then
        match r with
        | l :: r' =>
            if lo_surrogate l
            then option_map (cons (65536 + (u - 55296) * 1024 + (l - 56320))) (utf16_decode r')
            else None
        | [] => None
        end
      else if lo_surrogate u then None
      else option_map (cons u) (utf16_decode r)
  end.

(** PDFDocEncoding agrees with ASCII on the codes 32..126 (Annex D.2); the other codes
    are not needed here and left undefined. *)
Definition pdfdoc_decode (s : bytes) : option (list Z) :=
  if forallb (fun b => (32 <=? bz b) && (bz b <=? 126)) s then Some (map bz s) else None.

(** A text string is UTF-16BE if it starts with the byte order mark, else PDFDocEncoding. *)
Definition text_decode (s : bytes) : option (list Z) :=
  match s with
  | xfe :: xff :: r =>
      match units16 r with Some us => utf16_decode us | None => None end
  | _ => pdfdoc_decode s
  end.

(** ** Language escapes (7.9.2.2): U+001B, a two-letter language code, optionally a
    two-letter country code, U+001B, then text up to the next escape. *)

Definition esc : Z := 27.

Fixpoint span_z (p : Z -> bool) (s : list Z) : list Z * list Z :=
  match s with
  | [] => ([], [])
  | c :: r => if p c then let '(a, b) := span_z p r in (c :: a, b) else ([], s)
  end.

(** Split into (tag, text) segments; the text before the first escape must be empty. *)
Fixpoint lang_segments (fuel : nat) (s : list Z) : option (list (list Z * list Z)) :=
  match s with
  | [] => Some []
  | c :: r =>
      match fuel with
      | O => None
      | S f =>
          if c =? esc then
            let '(tag, r1) := span_z (fun x => negb (x =? esc)) r in
            match r1 with
            | [] => None
            | _ :: r2 =>
                let '(text, r3) := span_z (fun x => negb (x =? esc)) r2 in
                option_map (cons (tag, text)) (lang_segments f r3)
            end
          else None
      end
  end.

Definition lang_decode (s : bytes) : option (list (list Z * list Z)) :=
  match text_decode s with
  | Some t => lang_segments (List.length t) t
  | None => None
  end.

(** ** Dates: [D:YYYYMMDDHHmmSSOHH'mm], everything after the year optional from the right. *)

(** A date as read: the fields present, most significant first (year, month, day, hour,
    minute, second), and the offset from UTC in minutes if present. *)
Record rdate := mkRdate { rd_fields : list Z; rd_offset : option Z }.

(** Exactly [n] digits. *)
Definition take_digits (n : nat) (s : bytes) : option (Z * bytes) :=
  let d := firstn n s in
  if (Nat.eqb (List.length d) n) && forallb is_digit d
  then Some (digits_val d, skipn n s) else None.

Definition in_range (lo hi : Z) (v : Z) : bool := (lo <=? v) && (v <=? hi).

(** Two-digit fields with their legal ranges, as many as present. *)
Fixpoint date_fields (ranges : list (Z * Z)) (s : bytes) : option (list Z * bytes) :=
  match ranges with
  | [] => Some ([], s)
  | (lo, hi) :: rs =>
      match s with
      | [] => Some ([], [])
      | _ =>
          match take_digits 2 s with
          | Some (v, r) =>
              if in_range lo hi v then
                match date_fields rs r with
                | Some (vs, r') => Some (v :: vs, r')
                | None => None
                end
              else None
          | None => None
          end
      end
  end.

Definition date_offset (s : bytes) : option (option Z) :=
  match s with
  | [] => Some None
  | [x5a] => Some (Some 0)
  | sg :: r =>
      if beq sg x2b || beq sg x2d then
        match take_digits 2 r with
        | Some (h, x27 :: r') =>
            match take_digits 2 r' with
            | Some (m, []) =>
                if in_range 0 23 h && in_range 0 59 m
                then Some (Some ((if beq sg x2d then -1 else 1) * (60 * h + m)))
                else None
            | _ => None
            end
        | _ => None
        end
      else None
  end.

Definition date_parse (s : bytes) : option rdate :=
  match s with
  | x44 :: x3a :: r =>
      match take_digits 4 r with
      | Some (y, r1) =>
          match date_fields [(1, 12); (1, 31); (0, 23); (0, 59); (0, 59)] r1 with
          | Some (fs, r2) =>
              match r2 with
              | [] => Some (mkRdate (y :: fs) None)
              | _ =>
                  (* the offset only after all six fields *)
                  if Nat.eqb (List.length fs) 5 then
                    match date_offset r2 with
                    | Some o => Some (mkRdate (y :: fs) o)
                    | None => None
                    end
                  else None
              end
          | None => None
          end
      | None => None
      end
  | _ => None
  end.

(** ** Decimal to binary32

    [rounds_to n k v]: the decimal [n / 10^k] rounds to the finite binary32 value [v]
    under round-to-nearest, ties-to-even: no finite binary32 value is closer, a tie is
    won by the even significand, and the decimal is below the overflow threshold
    [(2^25-1) * 2^103].  Distances are compared after scaling by [2^149 * 10^k]. *)
Definition scaled_dist (n : Z) (k : nat) (w : f32) : Z :=
  Z.abs (n * 2 ^ 149 - f32_units w * 10 ^ Z.of_nat k).

Definition even_significand (v : f32) : bool :=
  match v with FFin _ m _ => Z.even m | _ => false end.

Definition rounds_to (n : Z) (k : nat) (v : f32) : Prop :=
  f32_finite v = true /\ f32_valid v = true /\
  Z.abs n < (2 ^ 25 - 1) * 2 ^ 103 * 10 ^ Z.of_nat k /\
  forall w, f32_finite w = true -> f32_valid w = true ->
    scaled_dist n k v <= scaled_dist n k w /\
    (scaled_dist n k v = scaled_dist n k w -> f32_units w <> f32_units v ->
     even_significand v = true).

(** A number token stands for the float [v]. *)
Definition number_means (t : token) (v : f32) : Prop :=
  match t with
  | TInt z => rounds_to z 0 v
  | TReal n k => rounds_to n k v
  | _ => False
  end.
