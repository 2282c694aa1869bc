(** Specification for the small array writers: how a reader decodes them. *)

From Coq Require Import ZArith List Bool.
From Verif Require Import Bytes ModelFloat ModelBuf ModelObject ModelColor ModelSmall SpecLex SpecObj SpecText SpecMeans SpecTyped SpecColor.
Import ListNotations.
Local Open Scope Z_scope.

(** ** Per-side attributes (ISO 32000-1, 14.8.5.4, table 343)

    "If a single value is specified it applies to all four edges; an array of four values
    specifies them in the order before, after, start, end." *)
Definition read_scalar_sides (v : val) : option (val * val * val * val) :=
  match v with
  | VArr [a; b; c; d] => Some (a, b, c, d)
  | VArr _ => None
  | v => Some (v, v, v, v)
  end.

(** Colours are three-number arrays themselves: an array of four elements is per edge, an
    array of three is one colour. *)
Definition read_color_sides (v : val) : option (val * val * val * val) :=
  match v with
  | VArr [a; b; c; d] => Some (a, b, c, d)
  | VArr [_; _; _] => Some (v, v, v, v)
  | _ => None
  end.

Definition is_array_value (v : val) : bool := match v with VArr _ => true | _ => false end.

(** ** Name and number trees (7.9.6, 7.9.7): [Names] holds alternating keys and values. *)

Fixpoint read_name_pairs (l : list val) : option (list (bytes * val)) :=
  match l with
  | [] => Some []
  | VStr k :: v :: r => option_map (cons (k, v)) (read_name_pairs r)
  | _ => None
  end.
Fixpoint read_number_pairs (l : list val) : option (list (Z * val)) :=
  match l with
  | [] => Some []
  | VInt k :: v :: r => option_map (cons (k, v)) (read_number_pairs r)
  | _ => None
  end.

(** ** Differences (9.6.6.1): "each code is the first index in a sequence of character codes
    to be changed; the first name after the code becomes the name of that code, and
    subsequent names replace consecutive code indices until the next code". *)
Fixpoint read_differences (code : option Z) (l : list val) : option (list (Z * bytes)) :=
  match l with
  | [] => Some []
  | VInt c :: r => read_differences (Some c) r
  | VName n :: r =>
      match code with
      | Some c => option_map (cons (c, n)) (read_differences (Some (c + 1)) r)
      | None => None
      end
  | _ => None
  end.

(** The assignments a caller asked for: [names] to the codes from [start] on. *)
Fixpoint numbered {A} (start : Z) (l : list A) : list (Z * A) :=
  match l with [] => [] | a :: r => (start, a) :: numbered (start + 1) r end.

(** ** CID widths (9.7.4.3): [c [w1 w2 ... wn]] or [c_first c_last w]. *)

Fixpoint range_from (first : Z) (n : nat) : list Z :=
  match n with O => [] | S n => first :: range_from (first + 1) n end.
(** first, ..., last (nothing if last < first). *)
Definition range (first last : Z) : list Z := range_from first (Z.to_nat (last - first + 1)).

Definition is_number (v : val) : bool := match v with VInt _ | VReal _ _ => true | _ => false end.

Fixpoint read_widths (l : list val) : option (list (Z * val)) :=
  match l with
  | [] => Some []
  | VInt c :: VArr ws :: r =>
      if forallb is_number ws then option_map (app (numbered c ws)) (read_widths r) else None
  | VInt first :: VInt last :: w :: r =>
      if is_number w then option_map (app (map (fun c => (c, w)) (range first last))) (read_widths r)
      else None
  | _ => None
  end.

(** What the caller of the width writer asked for. *)
Definition asked_widths (c : width_call) : list (Z * f32) :=
  match c with
  | WConsecutive start ws => numbered start ws
  | WSame first last w => map (fun c => (c, w)) (range first last)
  end.

Definition same_assignment (a : Z * f32) (b : Z * val) : Prop := fst b = fst a /\ real_means (snd a) (snd b).

(** Name tree nodes: [Kids] references, [Names] pairs; the values are primitives. *)
Definition pairs_are {K} (read : list val -> option (list (K * val))) (es : list (K * prim)) (v : val) : Prop :=
  exists vs ps, v = VArr vs /\ read vs = Some ps /\
    Forall2 (fun e p => fst p = fst e /\ means (OPrim (snd e)) (snd p)) es ps.

Definition name_tree_reads (c : name_tree_call) : bytes * (val -> Prop) :=
  match c with
  | NtKids l => (lit "Kids", is_refs l)
  | NtNames es => (lit "Names", pairs_are read_name_pairs es)
  | NtLimits a b => (lit "Limits", is_array [is_name a; is_name b])
  end.
Definition number_tree_reads (c : number_tree_call) : bytes * (val -> Prop) :=
  match c with
  | MtKids l => (lit "Kids", is_refs l)
  | MtNums es => (lit "Nums", pairs_are read_number_pairs es)
  | MtLimits a b => (lit "Limits", is_array [is_int a; is_int b])
  end.

(** ISO 32000-1, table 36: the limits of a name tree node are two strings. *)
Definition read_name_limits (v : val) : option (bytes * bytes) :=
  match v with VArr [VStr a; VStr b] => Some (a, b) | _ => None end.

(** What the caller may pass. *)
Definition value_ok (p : prim) : bool := prim_ok p && negb (is_empty_name (OPrim p)).
Definition name_tree_ok (c : name_tree_call) : bool :=
  match c with
  | NtKids l => forallb ref_ok l
  | NtNames es => forallb (fun e => value_ok (snd e)) es
  | NtLimits a b => name_ok a && name_ok b
  end.
Definition number_tree_ok (c : number_tree_call) : bool :=
  match c with
  | MtKids l => forallb ref_ok l
  | MtNums es => forallb (fun e => in_i32 (fst e) && value_ok (snd e)) es
  | MtLimits a b => in_i32 a && in_i32 b
  end.
(** [start] is a u8, CIDs are u16. *)
Definition diff_ok (c : Z * list bytes) : bool :=
  (0 <=? fst c) && (fst c <=? 255) && forallb name_ok (snd c).
Definition width_ok (c : width_call) : bool :=
  match c with
  | WConsecutive start ws => (0 <=? start) && (start <=? 65535) && forallb real_ok ws
  | WSame first last w => (0 <=? first) && (first <=? 65535) && ((0 <=? last) && (last <=? 65535)) && real_ok w
  end.

(** Border styles (table 343). *)
Definition iso_border_style (b : border_style) : bytes :=
  match b with
  | BsNone => lit "None" | BsHidden => lit "Hidden" | BsSolid => lit "Solid" | BsDashed => lit "Dashed"
  | BsDotted => lit "Dotted" | BsDouble => lit "Double" | BsGroove => lit "Groove" | BsRidge => lit "Ridge"
  | BsInset => lit "Inset" | BsOutset => lit "Outset"
  end.
