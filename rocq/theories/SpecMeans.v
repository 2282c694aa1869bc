(** Specification: what a caller asked for, compared with what a reader gets.

    [means o v]: the parsed value [v] (SpecObj.v) is the object [o] that was passed to the
    API (the types of ModelObject.v are the API's argument types). *)

From Coq Require Import ZArith List Bool.
From Verif Require Import Bytes ModelFloat ModelObject SpecLex SpecObj SpecText.
Import ListNotations.
Local Open Scope Z_scope.

(** ** Language-tagged text *)

(** The language tag as text: two-letter language, optional two-letter country. *)
Definition lang_scalars (l : langid) : list Z :=
  [bz (fst (lang l)); bz (snd (lang l))] ++
  match region l with Some (a, b) => [bz a; bz b] | None => [] end.

Definition seg_decoded (seg : langid * list Z) : list Z * list Z := (lang_scalars (fst seg), snd seg).

(** Neither the tag nor the text contains the escape character U+001B. *)
Definition no_esc (t : list Z) : bool := forallb (fun c => negb (c =? 27)) t.
Definition seg_clean (seg : langid * list Z) : bool :=
  no_esc (lang_scalars (fst seg)) && no_esc (snd seg).

(** ** Dates *)

(** The offset in minutes; the sign of the hours applies to the minutes. *)
Definition sgn_off (oh : Z) (om : Z) : Z := if oh <? 0 then oh * 60 - om else oh * 60 + om.

(** What the builder stored, as the reader should see it: fields up to the first missing
    one, offset in minutes if all six are present and an offset hour was given. *)
Definition date_reading (d : date) : rdate :=
  match d_month d with None => mkRdate [d_year d] None | Some mo =>
  match d_day d with None => mkRdate [d_year d; mo] None | Some da =>
  match d_hour d with None => mkRdate [d_year d; mo; da] None | Some h =>
  match d_minute d with None => mkRdate [d_year d; mo; da; h] None | Some mi =>
  match d_second d with None => mkRdate [d_year d; mo; da; h; mi] None | Some s =>
  mkRdate [d_year d; mo; da; h; mi; s]
    (match d_off_hour d with None => None | Some oh => Some (sgn_off oh (d_off_minute d)) end)
  end end end end end.

Definition opt_in (lo hi : Z) (o : option Z) : bool :=
  match o with None => true | Some v => (lo <=? v) && (v <=? hi) end.

(** The fields of a [Date] are in their documented ranges (true of every date the builder
    can produce: theorem C10). *)
Definition date_ok (d : date) : bool :=
  ((0 <=? d_year d) && (d_year d <=? 9999)) &&
  opt_in 1 12 (d_month d) && opt_in 1 31 (d_day d) && opt_in 0 23 (d_hour d) &&
  opt_in 0 59 (d_minute d) && opt_in 0 59 (d_second d) && opt_in (-23) 23 (d_off_hour d) &&
  ((0 <=? d_off_minute d) && (d_off_minute d <=? 59)).

(** ** Objects *)

(** A parsed number stands for the float [v]. *)
Inductive real_means (v : f32) : val -> Prop :=
| RM_int z : rounds_to z 0 v -> real_means v (VInt z)
| RM_real n k : rounds_to n k v -> real_means v (VReal n k).

Inductive means : obj -> val -> Prop :=
| MNull : means (OPrim PNull) VNull
| MBool b : means (OPrim (PBool b)) (VBool b)
| MInt z : means (OPrim (PInt z)) (VInt z)
| MReal r v : real_means r v -> means (OPrim (PReal r)) v
| MStr s : means (OPrim (PStr s)) (VStr s)
| MText t s : text_decode s = Some t -> means (OPrim (PText t)) (VStr s)
| MTextLang segs s : lang_decode s = Some (map seg_decoded segs) ->
    means (OPrim (PTextLang segs)) (VStr s)
| MName s : means (OPrim (PName s)) (VName s)
| MRef r : means (OPrim (PRef r)) (VRef r 0)
| MRect r a b c d :
    real_means (x1 r) a -> real_means (y1 r) b -> real_means (x2 r) c -> real_means (y2 r) d ->
    means (OPrim (PRect r)) (VArr [a; b; c; d])
| MDate d s : date_parse s = Some (date_reading d) -> means (OPrim (PDate d)) (VStr s)
| MArr l vs : Forall2 means l vs -> means (OArray l) (VArr vs)
| MDict l vs :
    Forall2 (fun e e' => fst e = fst e' /\ means (snd e) (snd e')) l vs ->
    means (ODict l) (VDict vs).

(** ** What the caller may pass *)

(** A finite 32-bit float. *)
Definition real_ok (v : f32) : bool := f32_finite v && f32_valid v.

Definition prim_ok (p : prim) : bool :=
  match p with
  | PInt z => in_i32 z
  | PReal v => real_ok v
  | PText t => forallb is_scalar t
  | PTextLang segs => forallb (fun s => forallb is_scalar (snd s) && seg_clean s) segs
  | PRef r => (0 <? r) && (r <=? i32_max)
  | PRect r => real_ok (x1 r) && real_ok (y1 r) && real_ok (x2 r) && real_ok (y2 r)
  | PDate d => date_ok d
  | PNull | PBool _ | PStr _ | PName _ => true
  end.

Fixpoint obj_ok (o : obj) : bool :=
  match o with
  | OPrim p => prim_ok p
  | OArray l => forallb obj_ok l
  | ODict l => forallb (fun e => obj_ok (snd e)) l
  end.

(** ** Empty names

    Does the text of [o] begin with a delimiter ([/], [(], [<], [\[])? *)
Definition begins_with_delimiter (o : obj) : bool :=
  match o with
  | OPrim (PNull | PBool _ | PInt _ | PReal _ | PRef _) => false
  | _ => true
  end.

Definition is_empty_name (o : obj) : bool :=
  match o with OPrim (PName []) => true | _ => false end.

Definition is_nil {A} (l : list A) : bool := match l with [] => true | _ => false end.

(** No empty name (as array item or as key) is directly followed by an object that does
    not begin with a delimiter. *)
Fixpoint separable (o : obj) : bool :=
  match o with
  | OPrim _ => true
  | OArray l =>
      (fix go (prev : bool) (l : list obj) : bool :=
         match l with
         | [] => true
         | it :: r => (negb prev || begins_with_delimiter it) && separable it && go (is_empty_name it) r
         end) false l
  | ODict l => forallb (fun e => (negb (is_nil (fst e)) || begins_with_delimiter (snd e)) && separable (snd e)) l
  end.

(** No name in the tree is empty: implies [separable]. *)
Fixpoint names_nonempty (o : obj) : bool :=
  match o with
  | OPrim p => negb (is_empty_name (OPrim p))
  | OArray l => forallb names_nonempty l
  | ODict l => forallb (fun e => negb (is_nil (fst e)) && names_nonempty (snd e)) l
  end.

(** ** Dates by their builder calls

    The last call of each setter wins; arguments are clamped into the field's range; the
    first field that was never set ends the date. *)
Fixpoint last_set (sel : date_call -> option Z) (cs : list date_call) : option Z :=
  match cs with
  | [] => None
  | c :: r => match last_set sel r with Some v => Some v | None => sel c end
  end.

Definition within (lo hi v : Z) : Z := if v <? lo then lo else if hi <? v then hi else v.

Definition set_month c := match c with DMonth v => Some (within 1 12 v) | _ => None end.
Definition set_day c := match c with DDay v => Some (within 1 31 v) | _ => None end.
Definition set_hour c := match c with DHour v => Some (within 0 23 v) | _ => None end.
Definition set_minute c := match c with DMinute v => Some (within 0 59 v) | _ => None end.
Definition set_second c := match c with DSecond v => Some (within 0 59 v) | _ => None end.
Definition set_off_hour c := match c with DOffHour v => Some (within (-23) 23 v) | _ => None end.
Definition set_off_minute c := match c with DOffMinute v => Some (within 0 59 v) | _ => None end.

Definition or_zero (o : option Z) : Z := match o with Some v => v | None => 0 end.

(** The values before the first missing one. *)
Fixpoint until_missing (l : list (option Z)) : list Z :=
  match l with Some v :: r => v :: until_missing r | _ => [] end.

Definition date_expected (year : Z) (cs : list date_call) : rdate :=
  let fields := until_missing [Some (within 0 9999 year); last_set set_month cs; last_set set_day cs;
                               last_set set_hour cs; last_set set_minute cs; last_set set_second cs] in
  mkRdate fields
    (if Nat.eqb (List.length fields) 6 then
       option_map (fun oh => sgn_off oh (or_zero (last_set set_off_minute cs))) (last_set set_off_hour cs)
     else None).

(** Arguments have their Rust types: u8, and i8 for the UTC offset hour. *)
Definition call_typed (c : date_call) : bool :=
  match c with
  | DMonth v | DDay v | DHour v | DMinute v | DSecond v | DOffMinute v => (0 <=? v) && (v <=? 255)
  | DOffHour v => (-128 <=? v) && (v <=? 127)
  end.
